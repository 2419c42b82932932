(** C67: what the results of sizing with an engine guarantee. *)
From Verif Require Import Prelude M_StratifiedTank M_MixedTank M_EnergyTank M_Building M_Heater M_Sizing S_Integral S_Sizing
  M_Step S_Step M_Swing S_Swing M_MPRTP M_Engine S_Engine S_EngineSize
  L_Building L_MixedTank L_Integral L_Sizing L_Sizing2 L_Sizing3 L_Sizing4 L_Step L_Step4 L_Swing4 L_MPRTP2 L_Engine L_Engine2 L_Engine5 L_Engine8
  P_Sizing P_Swing P_MPRTP P_Engine P_Engine2.
Open Scope Q_scope.

(** Sizing leaves a building given by the hour alone. *)
Lemma sized_building dt p b b' s : eng_sized dt p b = Ok (b', s) -> length (bd_peak b) = 24%nat -> b' = b.
Proof.
  intros H L. pose proof (daily_not_annual b L) as A. destruct (sized_common _ _ _ _ _ H) as (sched & m & fract & _ & _ & X).
  destruct s as [d x|l x|w x|d r f x|x|d].
  - destruct X as (w & X). exact (size_daily_building _ _ _ _ _ _ _ _ _ _ _ A X).
  - destruct X as (r & f & _ & _ & X). destruct (pl_size_inv _ _ _ _ _ _ _ _ _ X) as (_ & (w & D) & _). exact (size_daily_building _ _ _ _ _ _ _ _ _ _ _ A D).
  - destruct X as (r & f & w0 & _ & _ & _ & X). unfold swing_size in X. rewrite A in X. cbv zeta in X.
    destruct (swing_size_try _ _ _ _ _ _) as [s2 [w2|y]]; [|discriminate]. apply pair_equal_spec in X. destruct X as [X _]. apply pair_equal_spec in X. destruct X as [_ <-]. reflexivity.
  - destruct X as (w & _ & _ & X). exact (size_daily_building _ _ _ _ _ _ _ _ _ _ _ A X).
  - destruct X as (r & f & _ & _ & X). destruct (C49_boost _ _ _ _ _ _ _ _ _ _ _ _ _ _ _ _ X) as (s & c & v & c' & E & _).
    destruct (mp_size_inv _ _ _ _ _ _ _ _ _ E) as (b1 & d & l & hot & cap & rv & inl & f2 & st & _ & _ & EB & _ & _ & _ & _ & _ & _ & _ & _ & R).
    rewrite A in EB, R. apply ok_inj in EB. congruence.
  - exact (proj1 X).
Qed.

Theorem C67_building : forall dt p b e,
  eng_new dt p = Ok e -> eng_building dt p = Ok b -> length (bd_peak b) = 24%nat -> en_building e = b.
Proof.
  intros dt p b e H EB L. destruct (new_inv _ _ _ H) as (b0 & sched & m & EB0 & _ & [(vol & hs & _ & _ & _ & X & _)|(_ & ES & _)]); rewrite EB in EB0; apply ok_inj in EB0; subst b0.
  - exact X.
  - exact (sized_building _ _ _ _ _ ES L).
Qed.
Print Assumptions C67_building.

(** Inversion of construction by sizing, for a building with 24 hourly values. *)
Lemma sized_new dt p b e : eng_new dt p = Ok e -> ep_volume p = None -> eng_building dt p = Ok b -> length (bd_peak b) = 24%nat ->
  eng_sized dt p b = Ok (b, en_system e) /\ en_building e = b.
Proof.
  intros H V EB L. pose proof (C67_building _ _ _ _ H EB L) as E. destruct (new_sized _ _ _ H V) as (b0 & EB0 & ES).
  rewrite EB in EB0. apply ok_inj in EB0. subst b0. rewrite E in ES. auto.
Qed.

Lemma base_heat s b inlet c : design_inlet b = Ok inlet -> base_capacity s b = Ok c ->
  c * 1000 * dh_defrost s * dh_run s == daily_heat b (dh_supply s) inlet.
Proof.
  intros I H. destruct (capacity_inv _ _ _ _ I H) as (R & D & ->). unfold daily_heat. field. auto.
Qed.
Lemma rtp_heat ret flow s b inlet c : design_inlet b = Ok inlet -> rtp_capacity ret flow s b = Ok c ->
  c * 1000 * dh_defrost s * dh_run s == daily_heat b (dh_supply s) inlet + daily_loss (dh_supply s) ret flow.
Proof.
  intros I H. unfold rtp_capacity in H. destruct (bind_ok _ _ _ H) as (c0 & E & H1). clear H. destruct (bind_ok _ _ _ H1) as (r & R & H). clear H1. apply ok_inj in H. subst c.
  pose proof (base_heat _ _ _ _ I E) as B. destruct (capacity_inv _ _ _ _ I E) as (NR & ND & _).
  unfold recirc_capacity in R. destruct (bind_ok _ _ _ R) as (x & X & Y). apply qdiv_inv in X. destruct X as [_ ->]. apply qdiv_inv in Y. destruct Y as [_ ->].
  setoid_replace ((c0 + recirc_loss s ret flow * 24 / dh_run s / dh_defrost s) * 1000 * dh_defrost s * dh_run s)
    with (c0 * 1000 * dh_defrost s * dh_run s + recirc_loss s ret flow * 24 * 1000) by (field; auto).
  rewrite B. unfold recirc_loss, daily_loss. field.
Qed.

Lemma py_max_spec l m : py_max l = Ok m -> In m l /\ forall x, In x l -> x <= m.
Proof.
  unfold py_max. destruct l as [|y0 r]; [discriminate|]. intro H. apply ok_inj in H. subst m. split.
  - destruct (qmaxl_in y0 r) as [->|I]; [left; reflexivity|right; exact I].
  - intros y [<-|I]; [exact (proj1 (qmaxl_ge _ _))|exact (proj2 (qmaxl_ge _ _) y I)].
Qed.

(** What the heaters make in the run hours they are allowed. *)
Theorem C67_capacity : forall dt p b e inlet,
  eng_new dt p = Ok e -> ep_volume p = None -> without_schedule p ->
  eng_building dt p = Ok b -> length (bd_peak b) = 24%nat -> mains e inlet ->
  let heat := daily_heat b (ep_supply p) inlet in
  type_of (en_system e) <> SwingTank ->
  exists c, sized_capacity e = Some c /\
    match type_of (en_system e) with
    | PrimaryNoRecirc | ParallelLoop => c * 1000 * ep_defrost p * ep_run p == heat
    | SinglePassRTP => exists r f, ep_return p = Some r /\ ep_flow p = Some f /\
        c * 1000 * ep_defrost p * ep_run p == heat + daily_loss (ep_supply p) r f
    | MultiPassRTP => exists r f, ep_return p = Some r /\ ep_flow p = Some f /\
        (0 <= ep_defrost p -> heat + daily_loss (ep_supply p) r f <= c * 1000 * ep_defrost p * 14)
    | InstantWH => exists top, In top (bd_peak b) /\ (forall x, In x (bd_peak b) -> x <= top) /\
        c * 1000 * ep_defrost p == 60 * top * heat
    | SwingTank => False
    end.
Proof.
  intros dt p b e inlet H V NS EB L HI heat NT. destruct (sized_new _ _ _ _ H V EB L) as [ES E]. unfold mains in HI. rewrite E in HI. apply mains_inlet in HI.
  pose proof (daily_not_annual b L) as A. unfold sized_capacity, eng_results. cbn [fst snd].
  destruct (sized_common _ _ _ _ _ ES) as (sched & m & fract & EC & _ & X). pose proof (plain_no_shift _ _ _ NS EC) as N.
  assert (A' : (if bd_is_annual b then bd_set_daily (da_lib dt) b else Ok b) = Ok b) by (rewrite A; reflexivity).
  destruct (en_system e) as [d x|l x|w x|d r f x|x|d]; cbn [type_of sys_dhw] in *; [| |congruence| | |].
  - destruct X as (w & X). destruct (normal_size_inv _ _ _ _ _ _ _ _ _ _ _ _ _ N A' HI X) as (c & rv & f & st & C & _ & K & _).
    exists c. split; [exact C|]. exact (base_heat _ _ _ _ HI K).
  - destruct X as (r & f & _ & _ & X). destruct (pl_size_inv _ _ _ _ _ _ _ _ _ X) as (_ & (w & D) & _).
    destruct (normal_size_inv _ _ _ _ _ _ _ _ _ _ _ _ _ N A' HI D) as (c & rv & f' & st & C & _ & K & _).
    exists c. split; [exact C|]. exact (base_heat _ _ _ _ HI K).
  - destruct X as (w & ER & EF & X). destruct (normal_size_inv _ _ _ _ _ _ _ _ _ _ _ _ _ N A' HI X) as (c & rv & f' & st & C & _ & K & _).
    exists c. split; [exact C|]. exists r, f. split; [exact ER|]. split; [exact EF|]. exact (rtp_heat _ _ _ _ _ _ HI K).
  - destruct X as (r & f & ER & EF & X). destruct (C49_boost _ _ _ _ _ _ _ _ _ _ _ _ _ _ _ _ X) as (s & c & v & c' & E1 & C1 & _ & C2 & LE & _).
    destruct (mp_size_inv _ _ _ _ _ _ _ _ _ E1) as (b1 & d & l & hot & cap & rv & inl & f2 & st & _ & _ & B1 & _ & _ & K & _ & _ & _ & _ & RS & _).
    rewrite A in B1. apply ok_inj in B1. subst b1. assert (cap = c) by (rewrite RS in C1; cbn in C1; congruence). subst cap.
    exists c'. split; [exact C2|]. exists r, f. split; [exact ER|]. split; [exact EF|]. intro D0.
    pose proof (rtp_heat _ _ _ _ _ _ HI K) as Z. cbn [dh_defrost dh_run dh_supply] in Z. unfold heat. rewrite <- Z.
    apply Qmult_le_compat_r; [|discriminate]. apply Qmult_le_compat_r; [|exact D0]. apply Qmult_le_compat_r; [exact LE|discriminate].
  - destruct X as (_ & X). unfold instant_size in X. rewrite HI in X. cbn [bind] in X. destruct (bind_ok _ _ _ X) as (top & T & X1). clear X.
    destruct (bind_ok _ _ _ X1) as (y & Y & X2). clear X1. apply ok_inj in X2. apply qdiv_inv in Y. destruct Y as [D0 ->]. cbn [fresh dh_defrost dh_supply] in *.
    eexists. split; [subst d; reflexivity|]. exists top. destruct (py_max_spec _ _ T) as [I M]. split; [exact I|]. split; [exact M|].
    unfold heat, daily_heat. field. exact D0.
Qed.
Print Assumptions C67_capacity.

Lemma steepness_pos t : 0 < steepness t.
Proof. destruct t; reflexivity. Qed.

Lemma defaulted_is x d v : defaulted x d v -> v = or_default x d.
Proof. destruct x; exact (fun H => H). Qed.

Lemma share_of s sensor trigger slope inlet x : 0 < slope -> 0 <= sensor -> inlet < dh_supply s -> dh_supply s <= dh_storage s -> trigger <= dh_storage s ->
  supply_gal_100 s sensor trigger slope inlet = Ok x -> share sensor trigger slope (dh_supply s) (dh_storage s) inlet (x / 100).
Proof.
  intros A B C D E H. apply (is_integral_comp _ _ _ x). { field. }
  exact (supply_gal_integral _ _ _ _ _ _ A B C D E H).
Qed.

(** The tank is the smallest that never runs out, whenever the day starts, when the heaters run the
    hours they are allowed. *)
Theorem C67_storage : forall dt p b e inlet on_t,
  eng_new dt p = Ok e -> ep_volume p = None -> without_schedule p -> pooled (type_of (en_system e)) ->
  eng_building dt p = Ok b -> fits_run_hours b (ep_run p) -> mains e inlet -> defaulted (ep_on_t p) (ep_supply p) on_t ->
  0 <= ep_aq p -> inlet < ep_supply p <= ep_storage p -> on_t <= ep_storage p ->
  exists V u, sized_storage e = Some V /\
    share (ep_aq p) on_t (steepness (type_of (en_system e))) (ep_supply p) (ep_storage p) inlet u /\
    let runs_out V start n := level (V * u) (steady (bd_daily b / ep_run p)) (demand_at (bd_daily b) (bd_peak b)) start n < 0 in
    (forall start n, ~ runs_out V start n) /\
    (forall V', V' < V -> exists start n, (start < 24)%nat /\ (n <= 24)%nat /\ runs_out V' start n).
Proof.
  intros dt p b e inlet on_t H V NS T EB F HI ON A0 [I1 I2] O1. pose proof F as (L & _). destruct (sized_new _ _ _ _ H V EB L) as [ES E].
  unfold mains in HI. rewrite E in HI. apply mains_inlet in HI. pose proof (daily_not_annual b L) as A. apply defaulted_is in ON.
  destruct (sized_pooled _ _ _ _ _ ES T) as (sched & m & fract & K & d & w & EC & _ & D & _ & ST & KK). pose proof (plain_no_shift _ _ _ NS EC) as N.
  assert (A' : (if bd_is_annual b then bd_set_daily (da_lib dt) b else Ok b) = Ok b) by (rewrite A; reflexivity).
  destruct (normal_size_inv _ _ _ _ _ _ _ _ _ _ _ _ _ N A' HI D) as (c & rv & f & st & _ & S1 & _ & R & SF & SV).
  destruct (plain_controls _ _ _ NS EC) as [_ EM]. rewrite EM in SF. rewrite <- ON in SF.
  destruct (one_control_factor _ _ _ _ _ SF) as (x & SX & ->). cbn [ct_on_sensor ct_on_trigger] in SX.
  exists st, (x / 100). split; [unfold sized_storage, eng_results; cbn [fst snd]; congruence|]. split.
  { exact (share_of (fresh p (ep_run p)) _ _ _ _ _ (steepness_pos _) A0 I1 I2 O1 SX). }
  pose proof (supply_gal_nonneg (fresh p (ep_run p)) _ _ _ _ _ (steepness_pos _) A0 I1 I2 O1 SX) as X0.
  assert (X1 : 0 <= x / 100) by (apply qdiv_nonneg; [exact X0|reflexivity]).
  apply (pooled_running K p _ _ _ _ _ KK) in R.
  destruct (reservoir _ _ _ _ _ _ R SV X1 F) as [Q1 Q2]. cbv zeta. split.
  - intros start n X. specialize (Q1 start n). cbn [fresh dh_run] in Q1. lra.
  - exact Q2.
Qed.
Print Assumptions C67_storage.

(** Labels of the hours of a given schedule. *)
Lemma label_shed p ls sched h : mapM (hour_label ls (ep_lu_hours p)) hours24 = Ok sched -> (h < 24)%nat ->
  (nth_error sched h = Some "shed"%string <-> shed_hour ls h).
Proof.
  intros M L. destruct (forall2_nth _ _ _ (mapM_forall2 _ _ _ M) h _ (hours24_nth h L)) as (lab & EL & HL). rewrite EL.
  destruct (label_cases _ _ _ _ HL) as [(-> & S)|[(-> & k & (S & F) & Hk & _)|(-> & S & _)]]; split; intro X; auto; try discriminate.
  - exfalso. exact (F h Hk X).
  - contradiction.
Qed.

Lemma off_in_shed_labels p ls sched gen t : mapM (hour_label ls (ep_lu_hours p)) hours24 = Ok sched ->
  shed_gen sched gen t = off_in_shed ls gen t.
Proof.
  intro M. assert (L : (t mod 24 < 24)%nat) by (apply Nat.mod_upper_bound; discriminate). pose proof (label_shed _ _ _ _ M L) as X.
  unfold shed_gen, is_shed, off_in_shed. set (h := (t mod 24)%nat) in *. unfold shed_hour in X.
  destruct (forall2_nth _ _ _ (mapM_forall2 _ _ _ M) h _ (hours24_nth h L)) as (lab & EL & _). rewrite EL in *.
  destruct (String.eqb_spec lab "shed") as [->|N].
  - rewrite (proj1 X eq_refl). reflexivity.
  - destruct (nth_error ls h) as [z|]; [|reflexivity]. destruct z; try reflexivity. exfalso. apply N. specialize (proj2 X eq_refl). congruence.
Qed.

Lemma first_run_labels p ls sched a k : mapM (hour_label ls (ep_lu_hours p)) hours24 = Ok sched ->
  is_first_shed_run sched a k -> first_shed_hours ls a k.
Proof.
  intros M (K & A & B & C & D). assert (S : forall i, (i < k)%nat -> shed_hour ls (a + i)).
  { intros i Hi. apply (label_shed _ _ _ (a + i) M); [lia|]. exact (B i Hi). }
  repeat split; auto.
  - specialize (S 0%nat K). rewrite Nat.add_0_r in S. exact S.
  - intros j Hj X. apply (C j Hj). apply (label_shed _ _ _ j M); [lia|exact X].
  - destruct (Nat.eq_dec (a + k) 24) as [Q|Q]; [left; exact Q|]. right. destruct D as [D|D]; [contradiction|]. intro X. apply D. apply (label_shed _ _ _ _ M); [lia|exact X].
Qed.

Lemma level_gen V g1 g2 d start n : (forall t, g1 t = g2 t) -> level V g1 d start n == level V g2 d start n.
Proof. intro G. apply level_ext; [reflexivity|]. intro t. rewrite G. reflexivity. Qed.

(** A tank charged before the first shed hours lasts through them: it does not fall below its shed
    setting before they are over, nor afterwards, up to the end of the following day, until it has been
    full again. *)
Theorem C67_shed_window : forall dt p b e ls inlet fs ft ds dt_ fract,
  eng_new dt p = Ok e -> ep_volume p = None -> given_schedule p ls ->
  type_of (en_system e) = PrimaryNoRecirc \/ type_of (en_system e) = ParallelLoop ->
  eng_building dt p = Ok b -> length (bd_peak b) = 24%nat -> 0 <= bd_daily b -> (forall x, In x (bd_avg b) -> 0 <= x) ->
  mains e inlet -> inlet < ep_supply p <= ep_storage p -> 0 < ep_defrost p -> shifted_share dt p fract -> 0 <= fract ->
  charged_to p fs ft -> drained_to p ds dt_ -> 0 <= fs -> 0 <= ds -> ft <= ep_storage p -> dt_ <= ep_storage p ->
  let slope := 28 # 10 in
  exists V C uf us, sized_storage e = Some V /\ sized_capacity e = Some C /\
    share fs ft slope (ep_supply p) (ep_storage p) inlet uf /\ share ds dt_ slope (ep_supply p) (ep_storage p) inlet us /\
    (us < uf -> exists gen a k,
       gen * rho_cp * (ep_supply p - inlet) <= C * 1000 * ep_defrost p /\ first_shed_hours ls a k /\
       let usable := V * (uf - us) in
       let left := level usable (fun t => fract * off_in_shed ls gen t) (fun t => fract * demand_at (bd_daily b) (bd_avg b) t) a in
       (forall n, (n <= k)%nat -> 0 <= left n) /\
       (forall n, (k < n)%nat -> (a + n <= 48)%nat -> 0 <= left n \/ exists j, (k < j < n)%nat /\ left j == usable)).
Proof.
  intros dt p b e ls inlet fs ft ds dt_ fract H V GS T EB L D0 Sh HI [I1 I2] DF FR F0 CH DR P1 P2 P3 P4 slope.
  destruct (sized_new _ _ _ _ H V EB L) as [ES E]. unfold mains in HI. rewrite E in HI. apply mains_inlet in HI. pose proof (daily_not_annual b L) as A.
  assert (T' : pooled (type_of (en_system e))) by (destruct T as [->| ->]; unfold pooled; auto).
  assert (SL : steepness (type_of (en_system e)) = slope) by (destruct T as [->| ->]; reflexivity).
  destruct (sized_pooled _ _ _ _ _ ES T') as (sched & m & fract' & K & d & w & EC & EF & D & SC & ST & KK). rewrite SL in D.
  assert (KB : K = base_klass). { destruct KK as [[X _]|(r & f & _ & _ & _ & X)]; [exact X|destruct T; congruence]. } subst K.
  destruct GS as [G1 G2].
  assert (EQ : fract' = fract).
  { rewrite G1 in EF. destruct ls as [|z l]; [congruence|]. unfold ls_fract in EF. destruct FR as [(X & ->)|((X1 & X2) & ->)].
    - apply qleb_true in X. rewrite X in EF. apply ok_inj in EF. auto.
    - destruct (Qle_bool 1 (ep_ls_percent p)) eqn:Q1; qbool; [lra|]. destruct (Qle_bool (ep_ls_percent p) 0) eqn:Q2; qbool; [lra|]. apply ok_inj in EF. auto. }
  subst fract'. clear EF FR.
  destruct (controls_inv _ _ _ EC) as [([X|X] & _)|(ls' & GS' & M & nc & shc & lu & EM & EN & EH & LU)]; [congruence|congruence|].
  assert (ls' = ls) by (apply (given_unique p); [exact GS'|split; assumption]). subst ls'.
  assert (NE : sched <> []). { intro X. rewrite X in M. apply mapM_length in M. discriminate. }
  assert (DN : dict_get m "normal" = Some nc) by (rewrite EM; reflexivity).
  assert (DS : dict_get m "shed" = Some shc) by (rewrite EM; reflexivity).
  destruct DR as [DR1 DR2]. apply defaulted_is in DR1. apply defaulted_is in DR2.
  assert (S1 : ct_on_sensor shc = ds /\ ct_on_trigger shc = dt_) by (rewrite EH; cbn; auto). destruct S1 as [S1 S2].
  assert (S3 : ct_off_sensor (ctl_load_up m nc) = fs /\ ct_off_trigger (ctl_load_up m nc) = ft).
  { destruct CH as (off_t & OT & CH1 & CH2). apply defaulted_is in OT. unfold ctl_load_up. rewrite EM. cbn [dict_get].
    change (String.eqb "normal" "loadUp") with false. change (String.eqb "shed" "loadUp") with false. cbn iota.
    destruct LU as [(-> & NL)|(HL & a & EA & ->)].
    - cbn [dict_get]. destruct CH2 as [-> ->]. { intros [X1 X2]. destruct NL as [NL|NL]; [congruence|lia]. } rewrite EN. cbn. auto.
    - cbn [dict_get]. change (String.eqb "loadUp" "loadUp") with true. cbn iota. destruct CH1 as [C1 C2]. { split; [exact HL|congruence]. }
      apply defaulted_is in C1. apply defaulted_is in C2. cbn. rewrite C1, C2, OT. auto. }
  destruct S3 as [S3 S4].
  assert (A' : (if bd_is_annual b then bd_set_daily (da_lib dt) b else Ok b) = Ok b) by (rewrite A; reflexivity).
  assert (SP : 0 < slope) by reflexivity.
  destruct (supply_gal_total (fresh p (ep_run p)) fs ft slope inlet SP I1) as (lx & LX).
  destruct (supply_gal_total (fresh p (ep_run p)) ds dt_ slope inlet SP I1) as (sx & SX).
  destruct (size_ok_inv _ _ _ _ _ _ _ _ _ _ _ D) as (b0 & cap & stor & _ & _ & DE).
  assert (DC : dh_min_cap d = Some cap) by (rewrite DE; reflexivity). assert (DV : dh_min_stor d = Some stor) by (rewrite DE; reflexivity).
  exists stor, cap, (lx / 100), (sx / 100). unfold sized_storage, sized_capacity, eng_results. cbn [fst snd].
  split; [congruence|]. split; [congruence|].
  split; [exact (share_of (fresh p (ep_run p)) _ _ _ _ _ SP P1 I1 I2 P3 LX)|]. split; [exact (share_of (fresh p (ep_run p)) _ _ _ _ _ SP P2 I1 I2 P4 SX)|].
  intro US. assert (US' : sx < lx).
  { pose proof (proj1 (qdiv_lt_iff sx 100 (lx / 100) eq_refl) US) as Z. assert (Y : lx / 100 * 100 == lx) by (apply qdiv_mul; discriminate).
    eapply Qlt_le_trans; [exact Z|]. rewrite Y. apply Qle_refl. }
  rewrite <- S3, <- S4 in LX. rewrite <- S1, <- S2 in SX.
  destruct (C39_shed_window_covered _ _ _ _ _ _ _ _ _ _ _ _ _ _ _ _ A' NE DS DN D HI (Qlt_le_weak _ _ I1) DF F0 D0 Sh LX SX US')
    as (V1 & C1 & gen & a & k & E1 & E2 & HG & FSR & W1 & W2).
  assert (V1 = stor) by congruence. assert (C1 = cap) by congruence. subst V1 C1.
  exists gen, a, k. split; [exact HG|]. split; [exact (first_run_labels _ _ _ _ _ M FSR)|]. cbv zeta.
  assert (LV : forall n, level (stor * (lx / 100 - sx / 100)) (fun t => fract * off_in_shed ls gen t) (fun t => fract * demand_at (bd_daily b) (bd_avg b) t) a n ==
     level (stor * ((lx - sx) / 100)) (fun t => fract * shed_gen sched gen t) (fun t => fract * demand_at (bd_daily b) (bd_avg b) t) a n).
  { intro n. apply level_ext; [field|]. intro t. rewrite (off_in_shed_labels p ls sched gen t M). reflexivity. }
  split.
  - intros n Hn. rewrite LV. exact (W1 n Hn).
  - intros n Hn1 Hn2. destruct (W2 n Hn1 Hn2) as [X|(j & Hj & X)].
    + left. rewrite LV. exact X.
    + right. exists j. split; [exact Hj|]. rewrite LV, X. field.
Qed.
Print Assumptions C67_shed_window.

(** The temperature-maintenance equipment. *)
Theorem C67_maintenance : forall dt p b e,
  eng_new dt p = Ok e -> ep_volume p = None -> eng_building dt p = Ok b -> length (bd_peak b) = 24%nat -> 0 <= bd_daily b ->
  match type_of (en_system e) with
  | ParallelLoop => exists r f on off vol cap, ep_return p = Some r /\ ep_flow p = Some f /\
      defaulted (ep_tm_on p) (ep_supply p) on /\ defaulted (ep_tm_off p) (ep_supply p + 8) off /\
      sized_maintenance e = Some (vol, Some cap) /\
      vol * rho_cp * (off - on) == hourly_loss (ep_supply p) r f * ep_tm_off_time p /\
      cap * 1000 == ep_tm_safety p * hourly_loss (ep_supply p) r f
  | SwingTank => exists r f z cap, ep_return p = Some r /\ ep_flow p = Some f /\
      sized_maintenance e = Some (qz z, Some cap) /\
      let ok := swing_suffices (hourly_loss (ep_supply p) r f) (bd_daily b) (bd_peak b) in
      In z swing_sizes /\ ok (qz z) /\ (forall y, In y swing_sizes -> ok (qz y) -> (z <= y)%Z) /\
      cap * 1000 == ep_tm_safety p * hourly_loss (ep_supply p) r f
  | _ => sized_maintenance e = None
  end.
Proof.
  intros dt p b e H V EB L D0. destruct (sized_new _ _ _ _ H V EB L) as [ES E]. pose proof (daily_not_annual b L) as A.
  assert (A' : (if bd_is_annual b then bd_set_daily (da_lib dt) b else Ok b) = Ok b) by (rewrite A; reflexivity).
  destruct (sized_common _ _ _ _ _ ES) as (sched & m & fract & EC & _ & X). unfold sized_maintenance, eng_results. cbn [snd].
  destruct (en_system e) as [d x|l x|w x|d r f x|x|d]; cbn [type_of]; try reflexivity.
  - destruct X as (r & f & ER & EF & X). destruct (pl_size_inv _ _ _ _ _ _ _ _ _ X) as (TA & (w & D) & R1 & R2 & R3 & R4 & R5 & R6 & _ & vol & cap & TV & TC & QV & QC).
    cbn [pl_dhw pl_return pl_flow pl_on pl_off pl_off_time pl_safety] in *. destruct TA as (_ & _ & LT & _). cbn [pl_on pl_off] in LT.
    destruct (size_fields _ _ _ _ _ _ _ _ _ _ _ D) as (_ & SS & _). cbn in SS.
    exists r, f, (ep_tm_on_temp p), (ep_tm_off_temp p), vol, cap. rewrite TV, TC.
    split; [exact ER|]. split; [exact EF|]. split; [unfold ep_tm_on_temp; destruct (ep_tm_on p); reflexivity|].
    split; [unfold ep_tm_off_temp; destruct (ep_tm_off p); reflexivity|]. split; [reflexivity|].
    unfold pl_loss in QV, QC. rewrite R1, R2, SS in QV, QC. pose proof rho_pos as RP. split.
    + rewrite QV. unfold hourly_loss. field. split; [intro Z; lra|intro Z; rewrite Z in RP; discriminate].
    + rewrite QC. unfold hourly_loss. field.
  - destruct X as (r & f & w0 & ER & EF & EW & X). destruct (C45_smallest_adequate _ _ _ _ _ _ _ _ _ _ _ A' D0 X) as (z & ca & cap & TV & _ & TC & I & O & MN & _ & QC).
    unfold sw_new in EW. destruct (Qle_bool _ 1); [discriminate|]. apply ok_inj in EW. subst w0. unfold sw_loss in *. cbn [sw_flow sw_dhw sw_return sw_safety dh_supply] in *.
    exists r, f, z, cap. rewrite TV, TC. split; [exact ER|]. split; [exact EF|]. split; [reflexivity|]. cbv zeta.
    assert (LE : f * (ep_supply p - r) * rho_cp * 60 / 1000 * 1000 == hourly_loss (ep_supply p) r f) by (unfold hourly_loss; field).
    assert (EQ : forall v, needs (f * (ep_supply p - r) * rho_cp * 60 / 1000) (bd_daily b) (bd_peak b) v <->
                           swing_suffices (hourly_loss (ep_supply p) r f) (bd_daily b) (bd_peak b) v).
    { intro v. unfold needs, swing_suffices. rewrite LE. reflexivity. }
    split; [exact I|]. split; [apply EQ; exact O|]. split; [intros y Iy Oy; apply MN; [exact Iy|apply EQ; exact Oy]|].
    rewrite QC. unfold hourly_loss. field.
Qed.
Print Assumptions C67_maintenance.

Lemma plain_total K lib s b sched (m : ctl_map) c slope fract inlet cap rv x : m = [("normal"%string, c)] ->
  bd_is_annual b = false -> design_inlet b = Ok inlet -> k_capacity K s b = Ok cap -> 0 < cap -> k_running K s b cap = Ok rv ->
  supply_gal_100 s (ct_on_sensor c) (ct_on_trigger c) slope inlet = Ok x -> 0 < x ->
  exists d w cp st, dhw_size K lib s b (Some sched) (Some m) slope fract = (d, b, Ok w) /\
    dh_min_cap d = Some cp /\ dh_min_stor d = Some st /\ dh_run d = dh_run s /\ dh_defrost d = dh_defrost s.
Proof.
  intros EM A I C C0 R SX X0. unfold dhw_size. rewrite A.
  assert (LS : ls_active (Some sched) (Some m) = false) by (rewrite EM; unfold ls_active; destruct sched; reflexivity).
  rewrite cap_run_inactive by exact LS. unfold size_try, size_values. rewrite I. cbn [bind]. rewrite C. cbn [bind]. rewrite R. cbn [bind]. rewrite EM in *. clear EM m.
  unfold strat_factor, map_of. cbn [dict_get]. change (String.eqb "normal" "normal") with true. cbn iota. rewrite SX. cbn [bind].
  unfold storage_volume. assert (XP : 0 < x / 100) by (apply qlt_div_iff; [reflexivity|lra]). rewrite qdiv_ok by lra. cbn [bind]. rewrite LS. cbn iota.
  unfold short_cycling. cbv zeta. destruct (Qle_bool (dh_storage s - dh_supply s) 0) eqn:Q; qbool.
  - do 4 eexists. split; [reflexivity|]. repeat split; reflexivity.
  - cbn [mapM fst snd]. destruct (qltb (ct_on_sensor c) (ct_off_sensor c)); cbn [bind].
    + do 4 eexists. split; [reflexivity|]. repeat split; reflexivity.
    + pose proof rho_pos as RP. assert (RT : 0 < cap * 1000 / (rho_cp * (dh_storage s - dh_supply s))).
      { apply qlt_div_iff; [apply Qmult_lt_0_compat; lra|lra]. }
      rewrite qdiv_ok by lra. cbn [bind]. do 4 eexists. split; [reflexivity|]. repeat split; reflexivity.
Qed.

Lemma base_cap_total s b inlet : design_inlet b = Ok inlet -> 0 < bd_daily b -> 0 < dh_run s -> 0 < dh_defrost s -> inlet < dh_supply s ->
  exists c, base_capacity s b = Ok c /\ 0 < c.
Proof.
  intros I D R F T. unfold base_capacity. rewrite I. cbn [bind]. rewrite qdiv_ok by lra. cbn [bind]. rewrite qdiv_ok by lra. cbn [bind]. eexists. split; [reflexivity|].
  pose proof rho_pos as RP. assert (G : 0 < bd_daily b / dh_run s) by (apply qlt_div_iff; lra).
  apply qlt_div_iff; [reflexivity|]. setoid_replace (0 * 1000) with 0 by ring. apply qlt_div_iff; [exact F|]. setoid_replace (0 * dh_defrost s) with 0 by ring.
  apply Qmult_lt_0_compat; [apply Qmult_lt_0_compat; assumption|lra].
Qed.

(** Parameters that make sense are sized: construction does not raise. *)
Theorem C67_sizes : forall dt p b t inlet on_t, In (ep_schematic p, t) documented -> t <> MultiPassRTP ->
  ep_volume p = None -> eng_building dt p = Ok b -> sizable p b t inlet on_t ->
  exists e, eng_new dt p = Ok e /\ type_of (en_system e) = t.
Proof.
  intros dt p b t inlet on_t D NM V EB SZ. assert (G : exists b' s, eng_sized dt p b = Ok (b', s)).
  2:{ destruct G as (b' & s & G). assert (N : eng_new dt p = Ok (mkEngine b' s)) by (unfold eng_new; rewrite EB; cbn [bind]; rewrite V, G; reflexivity).
      exists (mkEngine b' s). split; [exact N|]. pose proof (C52_dispatch _ _ _ N) as D'. exact (C52_names_unambiguous _ _ _ D' D). }
  destruct SZ as [NS L D0 BI ON R0 F0 [[I1 I2] O1] [A0 [SS A1]] LP TM SW]. pose proof (daily_not_annual b L) as A. pose proof (mains_inlet _ _ BI) as HI.
  assert (EC : exists sched m, eng_controls p = Ok (sched, m) /\ m = [("normal"%string, mkControls (ep_aq p) on_t (ep_off_sensor p) (or_default (ep_off_t p) (ep_storage p)) (ep_storage p))]).
  { apply defaulted_is in ON. subst on_t. unfold eng_controls. cbv zeta. destruct (ep_ls p) as [[|z l]|] eqn:EL.
    - do 2 eexists. split; reflexivity.
    - exfalso. apply (NS (z :: l)). split; [exact EL|discriminate].
    - do 2 eexists. split; reflexivity. }
  destruct EC as (sched & m & EC & EM). apply kind_documented in D. destruct D as (k & EK & D).
  assert (EF : match ep_ls p with None | Some [] => Ok 1 | Some _ => ls_fract (da_icdf dt) (ep_ls_percent p) end = Ok 1).
  { destruct (ep_ls p) as [[|z l]|] eqn:EL; try reflexivity. exfalso. apply (NS (z :: l)). split; [exact EL|discriminate]. }
  unfold eng_sized. rewrite EC. cbn [bind]. rewrite EF. cbn [bind]. cbv zeta. rewrite EK.
  set (c := mkControls _ _ _ _ _) in EM. set (s0 := mkDhw (ep_supply p) (ep_storage p) (ep_run p) (ep_defrost p) None None None).
  destruct (supply_gal_total s0 (ep_aq p) on_t (steepness t) inlet (steepness_pos t) I1) as (x & SX).
  pose proof (supply_gal_pos s0 _ _ _ _ _ (steepness_pos t) A0 A1 I1 I2 O1 SS SX) as X0.
  destruct (base_cap_total s0 b inlet HI D0 R0 F0 I1) as (cp & CP & CP0).
  assert (BR : exists rv, base_running s0 b cp = Ok rv). { unfold base_running. rewrite qdiv_ok by (cbn; lra). eexists. reflexivity. }
  destruct BR as (rv & BR).
  destruct k; cbn [type_kind] in D; subst t; cbn [steepness] in SX; try congruence.
  - unfold fs_primary. fold s0. destruct (plain_total base_klass (da_lib dt) s0 b sched m c (28 # 10) 1 inlet cp rv x EM A HI CP CP0 BR SX X0) as (d & w & c1 & v1 & -> & E1 & E2 & _).
    cbn [bind]. unfold fs_parts. rewrite E1, E2. cbn [bind]. do 2 eexists. reflexivity.
  - destruct LP as (r & f & ER & EF' & LP1 & LP2). { split; discriminate. }
    assert (RQ : require_recirc p = Ok (r, f)) by (apply recirc_ok; auto). rewrite RQ. cbn [bind fst snd]. unfold fs_parallel. cbv zeta. fold s0.
    set (p0 := mkPloop _ _ _ _ _ _ _ _ _ _). destruct (TM eq_refl) as (T1 & T2 & T3 & on & off & TN & TF & TL). apply defaulted_is in TN. apply defaulted_is in TF.
    assert (TA : tm_accepted p0). { unfold tm_accepted, p0. cbn [pl_safety pl_off_time pl_on pl_off]. unfold ep_tm_on_temp, ep_tm_off_temp. rewrite <- TN, <- TF. auto. }
    destruct (plain_total base_klass (da_lib dt) s0 b sched m c (28 # 10) 1 inlet cp rv x EM A HI CP CP0 BR SX X0) as (d & w & c1 & v1 & DS & E1 & E2 & _).
    unfold pl_size. apply accepted_iff in TA. rewrite TA. change (pl_dhw p0) with s0. rewrite DS. assert (ND : ~ ep_tm_off_temp p - ep_tm_on_temp p == 0) by (unfold ep_tm_on_temp, ep_tm_off_temp; rewrite <- TN, <- TF; lra).
    unfold pl_size_tm. unfold p0. cbn [pl_off_time pl_off pl_on]. rewrite qdiv_ok by exact ND. cbn [bind pl_dhw]. unfold fs_parts. cbn [bind pl_dhw pl_set_dhw]. rewrite E1, E2. cbn [bind pl_tm_vol pl_tm_cap].
    unfold pl_build. cbn [pl_num pl_set_dhw]. rewrite qdiv_ok by discriminate. cbn [bind]. do 2 eexists. reflexivity.
  - destruct (SW eq_refl) as (S1 & S2 & (r & f & ER & EF' & SF1 & SF2) & S4).
    destruct LP as (r' & f' & ER2 & EF2 & LP1 & LP2). { split; discriminate. }
    assert (r' = r) by congruence. assert (f' = f) by congruence. subst r' f'.
    assert (RQ : require_recirc p = Ok (r, f)) by (apply recirc_ok; auto). rewrite RQ. cbn [bind fst snd]. unfold fs_swing.
    unfold sw_new. destruct (Qle_bool (ep_tm_safety p) 1) eqn:Q; qbool; [lra|]. cbn [bind]. fold s0. set (w0 := mkSwing _ _ _ _ _ _ _ _).
    destruct (C43_sizing_succeeds (da_lib dt) w0 b (Some sched) (Some m) (28 # 10) 1 inlet (x / 100) A) as (w & SZ).
    + right. intros m' E. injection E as <-. rewrite EM. reflexivity.
    + exact HI.
    + rewrite EM. unfold strat_factor, map_of. cbn [dict_get]. change (String.eqb "normal" "normal") with true. cbn iota. change (sw_dhw w0) with s0. unfold c. cbn [ct_on_sensor ct_on_trigger]. rewrite SX. reflexivity.
    + assert (XP : 0 < x / 100) by (apply qlt_div_iff; [reflexivity|lra]). lra.
    + exact I1.
    + exact I2.
    + exact R0.
    + cbn. lra.
    + exact S1.
    + unfold sw_loss. cbn. pose proof rho_pos as RP. apply qdiv_nonneg; [|reflexivity].
      apply Qmult_le_0_compat; [|discriminate]. apply Qmult_le_0_compat; [|lra]. apply Qmult_le_0_compat; lra.
    + exact L.
    + exact S2.
    + exact D0.
    + unfold sw_loss. cbn [sw_flow sw_dhw sw_return w0 dh_supply s0]. unfold hourly_loss in SF1.
      setoid_replace (f * (ep_supply p - r) * rho_cp * 60 / 1000 * 1000) with (f * 60 * rho_cp * (ep_supply p - r)) by field.
      eapply Qle_trans; [exact SF1|]. apply Qle_lteq. right. reflexivity.
    + exact SF2.
    + exact S4.
    + rewrite SZ. cbn [bind]. destruct (swing_size_inv _ _ _ _ _ _ _ _ _ _ SZ) as (b1 & i & s1 & mo & rv1 & f1 & st1 & cap1 & _ & _ & TM1 & _ & _ & _ & _ & cap' & stor' & mix' & EQ & _).
      destruct (size_tm_inv _ _ _ TM1) as (v & vol & ca & _ & _ & _ & _ & EQ1). rewrite EQ. cbn [sw_dhw dh_min_cap dh_min_stor sw_tm_vol]. rewrite EQ1. cbn. do 2 eexists. reflexivity.
  - destruct LP as (r & f & ER & EF' & LP1 & LP2). { split; discriminate. }
    assert (RQ : require_recirc p = Ok (r, f)) by (apply recirc_ok; auto). rewrite RQ. cbn [bind fst snd]. unfold fs_sprtp, sprtp_size. fold s0.
    pose proof rho_pos as RP.
    assert (LS0 : 0 <= recirc_loss s0 r f).
    { unfold recirc_loss. apply qdiv_nonneg; [|reflexivity]. apply Qmult_le_0_compat; [|cbn; lra]. apply Qmult_le_0_compat; [|lra]. apply Qmult_le_0_compat; [exact LP2|discriminate]. }
    assert (RC : exists y, recirc_capacity s0 r f = Ok y /\ 0 <= y).
    { unfold recirc_capacity. rewrite (qdiv_ok _ (dh_run s0)) by (cbn; lra). cbn [bind]. rewrite qdiv_ok by (cbn; lra). eexists. split; [reflexivity|].
      apply qdiv_nonneg; [|exact F0]. apply qdiv_nonneg; [|exact R0]. lra. }
    destruct RC as (y & RC & Y0).
    assert (RCap : rtp_capacity r f s0 b = Ok (cp + y)) by (unfold rtp_capacity; rewrite CP; cbn [bind]; rewrite RC; reflexivity).
    assert (RR : sprtp_running r f s0 b (cp + y) = Ok rv).
    { unfold sprtp_running, recirc_daily_gal. rewrite HI. cbn [bind]. rewrite qdiv_ok; [exact BR|]. intro Z.
      assert (0 < rho_cp * (dh_supply s0 - inlet)) by (apply Qmult_lt_0_compat; [exact RP|cbn; lra]). lra. }
    destruct (plain_total (sprtp_klass r f) (da_lib dt) s0 b sched m c (17 # 10) 1 inlet (cp + y) rv x EM A HI RCap ltac:(lra) RR SX X0) as (d & w & c1 & v1 & -> & E1 & E2 & E3 & E4).
    cbn [bind]. assert (RD : exists y', recirc_capacity d r f = Ok y').
    { unfold recirc_capacity. rewrite E3, E4. rewrite (qdiv_ok _ (dh_run s0)) by (cbn; lra). cbn [bind]. rewrite qdiv_ok by (cbn; lra). eexists. reflexivity. }
    destruct RD as (y' & ->). cbn [bind]. unfold fs_parts. rewrite E1, E2. cbn [bind]. do 2 eexists. reflexivity.
  - unfold fs_instant, instant_size. rewrite HI. cbn [bind]. unfold py_max. destruct (bd_peak b) as [|y0 l]; [discriminate L|]. cbn [bind].
    rewrite qdiv_ok by (cbn; lra). cbn [bind]. do 2 eexists. reflexivity.
Qed.
Print Assumptions C67_sizes.

(** The primary plant of a swing-tank engine: its capacity makes the water the swing tank draws from it,
    at storage temperature, in the run hours, and the tank covers a day that starts at any of the hours probed. *)
Theorem C67_swing : forall dt p b e inlet on_t r f,
  eng_new dt p = Ok e -> ep_volume p = None -> without_schedule p -> type_of (en_system e) = SwingTank ->
  eng_building dt p = Ok b -> length (bd_peak b) = 24%nat -> (forall x, In x (bd_peak b) -> 0 <= x) -> 0 < bd_daily b ->
  mains e inlet -> defaulted (ep_on_t p) (ep_supply p) on_t -> 0 <= ep_aq p -> inlet < ep_supply p <= ep_storage p -> on_t <= ep_storage p ->
  0 < ep_run p -> ep_return p = Some r -> ep_flow p = Some f -> r <= ep_supply p -> 0 <= f ->
  (forall x vol cap, In x (bd_peak b) -> sized_maintenance e = Some (vol, cap) -> ~ bd_daily b * x == vol * 60) ->
  exists vol cap V C u mix, sized_maintenance e = Some (vol, Some cap) /\ sized_storage e = Some V /\ sized_capacity e = Some C /\
    share (ep_aq p) on_t (28 # 10) (ep_supply p) (ep_storage p) inlet u /\
    let k := mkTank (ep_supply p) (ep_storage p) inlet (loop_kbtuh (ep_supply p) r f) vol cap in
    let W := V * u * (ep_supply p - inlet) / (ep_storage p - inlet) in
    0 <= mix <= qmax 1 (qsum (bd_peak b)) /\
    C * 1000 * ep_defrost p * ep_run p == bd_daily b * mix * rho_cp * (ep_storage p - inlet) /\
    (forall i, probed (ep_run p) (bd_peak b) i ->
       exists mix draw, 0 <= mix <= qsum (bd_peak b) /\ day_covered k (ep_run p) (bd_daily b) (bd_peak b) i W mix draw) /\
    (W == 0 \/ exists i draw n, probed (ep_run p) (bd_peak b) i /\
       day_covered k (ep_run p) (bd_daily b) (bd_peak b) i W mix draw /\ (n <= day_minutes)%nat /\
       W == total (fun j => draw j - bd_daily b * mix / ep_run p / 60) n).
Proof.
  intros dt p b e inlet on_t r f H V NS T EB L P0 D0 HI ON A0 [I1 I2] O1 R0 ER EF LP1 LP2 NEQ.
  destruct (sized_new _ _ _ _ H V EB L) as [ES E]. unfold mains in HI. rewrite E in HI. apply mains_inlet in HI. pose proof (daily_not_annual b L) as A. apply defaulted_is in ON.
  assert (A' : (if bd_is_annual b then bd_set_daily (da_lib dt) b else Ok b) = Ok b) by (rewrite A; reflexivity).
  destruct (sized_common _ _ _ _ _ ES) as (sched & m & fract & EC & _ & X). pose proof (plain_no_shift _ _ _ NS EC) as N. destruct (plain_controls _ _ _ NS EC) as [_ EM].
  unfold sized_maintenance, sized_storage, sized_capacity, eng_results in *. cbn [fst snd] in *.
  destruct (en_system e) as [d x|l x|w x|d r0 f0 x|x|d]; cbn [type_of] in T; try discriminate. cbn [sys_dhw].
  destruct X as (r' & f' & w0 & ER' & EF' & EW & X). assert (r' = r) by congruence. assert (f' = f) by congruence. subst r' f'.
  unfold sw_new in EW. destruct (Qle_bool (ep_tm_safety p) 1) eqn:Q; [discriminate|]. qbool. apply ok_inj in EW.
  assert (SP : 0 < 28 # 10) by reflexivity.
  destruct (supply_gal_total (fresh p (ep_run p)) (ep_aq p) on_t (28 # 10) inlet SP I1) as (y & SX).
  assert (SF : strat_factor (sw_dhw w0) (Some m) (28 # 10) inlet = Ok (y / 100)).
  { rewrite EM, <- EW. unfold strat_factor, map_of. cbn [dict_get]. change (String.eqb "normal" "normal") with true. cbn iota. cbn [ct_on_sensor ct_on_trigger sw_dhw]. rewrite <- ON.
    change (mkDhw (ep_supply p) (ep_storage p) (ep_run p) (ep_defrost p) None None None) with (fresh p (ep_run p)). rewrite SX. reflexivity. }
  assert (LE : sw_loss w0 = loop_kbtuh (ep_supply p) r f) by (rewrite <- EW; reflexivity).
  assert (D1 : dh_supply (sw_dhw w0) = ep_supply p /\ dh_storage (sw_dhw w0) = ep_storage p /\ dh_run (sw_dhw w0) = ep_run p /\ dh_defrost (sw_dhw w0) = ep_defrost p /\ sw_safety w0 = ep_tm_safety p).
  { rewrite <- EW. repeat split. } destruct D1 as (D1 & D2 & D3 & D4 & D5).
  assert (LN : 0 <= sw_loss w0).
  { rewrite LE. unfold loop_kbtuh. pose proof rho_pos as RP. apply qdiv_nonneg; [|reflexivity].
    apply Qmult_le_0_compat; [|discriminate]. apply Qmult_le_0_compat; [|lra]. apply Qmult_le_0_compat; lra. }
  assert (NE : forall x vol, In x (bd_peak b) -> sw_tm_vol w = Some vol -> ~ bd_daily b * x == vol * 60).
  { intros z vol Iz TV. apply (NEQ z vol (sw_tm_cap w) Iz). rewrite TV. reflexivity. }
  destruct (C44_sized_for_every_probed_day (da_lib dt) w0 b b (Some sched) (Some m) (28 # 10) fract w b tt inlet (y / 100) A' N X HI SF)
    as (vol & cap & V1 & C1 & TV & TC & SV & SC & Z); try (rewrite ?D1, ?D2, ?D3, ?D5; assumption); try assumption.
  rewrite D1, D2, D3, D4, LE in Z. cbv zeta in Z. destruct Z as (Z1 & Z2 & Z3 & Z4).
  exists vol, cap, V1, C1, (y / 100), (sw_eff_mix w). rewrite TV, TC. split; [reflexivity|]. split; [exact SV|]. split; [exact SC|].
  split; [exact (share_of (fresh p (ep_run p)) _ _ _ _ _ SP A0 I1 I2 O1 SX)|]. cbv zeta. auto.
Qed.
Print Assumptions C67_swing.

(** ** Cases *)

Definition ex_plain (name : string) : eparams := ex_params name None 0 None None None.
Lemma ex_plain_sizable name t : In (name, t) documented -> t <> MultiPassRTP ->
  exists b, eng_building ex_data (ex_plain name) = Ok b /\ bd_peak b = ex_shape /\ bd_daily b = 1000 /\ bd_design_inlet b = Ok (Some 50) /\ sizable (ex_plain name) b t 50 120.
Proof.
  intros _ NM. exists (mkBuilding (Some (cz_from_design (Some 30) (Some 50))) 1000 ex_shape ex_shape "custom").
  split; [reflexivity|]. split; [reflexivity|]. split; [reflexivity|]. split; [reflexivity|]. split; try reflexivity.
  - intros ls [X _]. discriminate X.
  - repeat split; (discriminate || reflexivity).
  - repeat split; (discriminate || (destruct t; reflexivity)).
  - intros _. exists 110, 3. repeat split; discriminate.
  - intros _. split; [reflexivity|]. split; [split; (discriminate || reflexivity)|]. split; [reflexivity|]. exists 120, 128. repeat split.
  - intros _. split; [reflexivity|]. split.
    + intros x I. cbn in I. repeat (destruct I as [<-|I]; [discriminate|]). destruct I.
    + split.
      * exists 110, 3. split; [reflexivity|]. split; [reflexivity|]. split; [discriminate|].
        intros x I. cbn in I. repeat (destruct I as [<-|I]; [discriminate|]). destruct I.
      * intros x z I J. assert (B : bd_daily (mkBuilding (Some (cz_from_design (Some 30) (Some 50))) 1000 ex_shape ex_shape "custom") * x <= 1000).
        { cbn in I. repeat (destruct I as [<-|I]; [discriminate|]). destruct I. }
        assert (K : 40 <= qz z). { cbn in J. repeat (destruct J as [<-|J]; [discriminate|]). destruct J. }
        intro X. rewrite X in B. lra.
Qed.

(** Every documented single-pass system, sized for 1000 gallons a day with a morning peak. *)
Example C67_sizes_case : forall name t, In (name, t) documented -> t <> MultiPassRTP ->
  exists e, eng_new ex_data (ex_plain name) = Ok e /\ type_of (en_system e) = t /\ mains e 50.
Proof.
  intros name t D NM. destruct (ex_plain_sizable name t D NM) as (b & EB & P & _ & BI & SZ).
  destruct (C67_sizes ex_data (ex_plain name) b t 50 120 D NM eq_refl EB SZ) as (e & N & T). exists e. split; [exact N|]. split; [exact T|].
  unfold mains. rewrite (C67_building _ _ _ _ N EB); [exact BI|]. rewrite P. reflexivity.
Qed.

(** Its results are covered by the theorems above. *)
Example C67_storage_case : exists e b V u, eng_new ex_data (ex_plain "sprtp") = Ok e /\ eng_building ex_data (ex_plain "sprtp") = Ok b /\
  fits_run_hours b 16 /\ sized_storage e = Some V /\ share (1 # 2) 120 (17 # 10) 120 150 50 u /\
  forall start n, 0 <= level (V * u) (steady (1000 / 16)) (demand_at 1000 ex_shape) start n.
Proof.
  assert (D : In ("sprtp"%string, SinglePassRTP) documented) by (cbn; tauto).
  destruct (C67_sizes_case "sprtp" SinglePassRTP D) as (e & N & T & M); [discriminate|].
  destruct (ex_plain_sizable "sprtp" SinglePassRTP D) as (b & EB & P & DD & BI & SZ); [discriminate|].
  assert (F : fits_run_hours b 16). { unfold fits_run_hours. rewrite P, DD. repeat split; discriminate. }
  assert (T' : pooled (type_of (en_system e))) by (rewrite T; unfold pooled; auto).
  assert (WS : without_schedule (ex_plain "sprtp")) by (intros ls [X _]; discriminate X).
  destruct (C67_storage ex_data (ex_plain "sprtp") b e 50 120 N eq_refl WS T' EB F M eq_refl) as (V & u & SV & SH & NR & _); [discriminate|split; (discriminate || reflexivity)|discriminate|].
  exists e, b, V, u. split; [exact N|]. split; [exact EB|]. split; [exact F|]. split; [exact SV|]. rewrite T in SH. split; [exact SH|].
  intros start n. rewrite DD, P in NR. apply Qnot_lt_le. exact (NR start n).
Qed.

(** A load-shifting engine: shed from 17 to 20 h after two hours of load-up. *)
Definition ex_shift : eparams := ex_params "primary_no_recirc" (Some ex_shed_evening) 2 (Some (8 # 10)) None None.
Example C67_shed_case : exists e, eng_new ex_data ex_shift = Ok e /\ type_of (en_system e) = PrimaryNoRecirc /\
  given_schedule ex_shift ex_shed_evening /\ shifted_share ex_data ex_shift 1 /\
  charged_to ex_shift (1 # 10) 150 /\ drained_to ex_shift (1 # 2) 120 /\
  exists uf us, share (1 # 10) 150 (28 # 10) 120 150 50 uf /\ share (1 # 2) 120 (28 # 10) 120 150 50 us /\ us < uf.
Proof.
  destruct (eng_new ex_data ex_shift) as [e|x] eqn:N; [|vm_compute in N; discriminate]. exists e. split; [reflexivity|].
  split. { pose proof (C52_dispatch _ _ _ N) as D. apply (C52_names_unambiguous _ _ _ D). cbn. tauto. }
  split; [split; [reflexivity|discriminate]|]. split; [left; split; [discriminate|reflexivity]|].
  split. { exists 150. split; [reflexivity|]. split; [intros _; split; reflexivity|intros X; exfalso; apply X; split; [reflexivity|discriminate]]. }
  split; [split; reflexivity|].
  destruct (supply_gal_100 (fresh ex_shift 16) (1 # 10) 150 (28 # 10) 50) as [lx|] eqn:LX; [|discriminate].
  destruct (supply_gal_100 (fresh ex_shift 16) (1 # 2) 120 (28 # 10) 50) as [sx|] eqn:SX; [|discriminate].
  exists (lx / 100), (sx / 100). split; [exact (share_of (fresh ex_shift 16) (1 # 10) 150 (28 # 10) 50 _ eq_refl ltac:(discriminate) eq_refl ltac:(discriminate) ltac:(discriminate) LX)|].
  split; [exact (share_of (fresh ex_shift 16) (1 # 2) 120 (28 # 10) 50 _ eq_refl ltac:(discriminate) eq_refl ltac:(discriminate) ltac:(discriminate) SX)|].
  vm_compute in LX, SX. apply ok_inj in LX. apply ok_inj in SX. subst lx sx. reflexivity.
Qed.
