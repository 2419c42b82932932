(** Lemmas for load-shift sizing of swing-tank systems (C80). *)
From Verif Require Import Prelude M_StratifiedTank M_Building M_Heater M_Sizing S_Sizing L_Building L_Heater L_Sizing L_Sizing2 L_Sizing3 L_Sizing4 M_Swing S_Swing L_Swing L_Swing2 L_Swing3 L_Swing4 S_SwingLS.
Open Scope Q_scope.

(** A swing tank and an average day it can serve. *)
Record ls_ready (v : swing_env) (daily : Q) (shape : list Q) : Prop := {
  lr_vol : 0 < sv_vol v; lr_loss : 0 <= sv_loss v; lr_cap : sv_loss v <= sv_cap v;
  lr_inlet : sv_inlet v < sv_supply v; lr_storage : sv_supply v <= sv_storage v;
  lr_daily : 0 < daily; lr_len : length shape = 24%nat;
  lr_shape : forall x, In x shape -> 0 <= x /\ daily * x < 60 * sv_vol v }.

Lemma per_minute_length l : length (per_minute l) = (60 * length l)%nat.
Proof. unfold per_minute. rewrite map_length, hr_to_min_length. lia. Qed.
Lemma per_minute_nth l n : (n < 60 * length l)%nat -> nth n (per_minute l) 0 == nth (n / 60) l 0 / 60.
Proof. intro H. unfold per_minute. rewrite nth_map by (rewrite hr_to_min_length; lia). rewrite hr_to_min_nth by lia. reflexivity. Qed.
Lemma per_minute_sum l : qsum (per_minute l) == qsum l.
Proof.
  unfold per_minute. assert (E : forall l, qsum (map (fun x => x / 60) l) == qsum l / 60).
  { clear l. induction l as [|x l IH]; cbn [map qsum]; [reflexivity|]. rewrite IH. field. }
  rewrite E, hr_to_min_sum. field.
Qed.

Lemma window_sim v daily shape i l k : ls_ready v daily shape -> length l = k -> (0 < k)%nat ->
  (forall j, (j < k)%nat -> nth j l 0 == daily * nth ((i + j) mod 24) shape 0) ->
  exists sim draw, sim_just_swing v (per_minute l) (sv_supply v + (1 # 10)) = Ok sim /\ length (hw_of sim) = (60 * k)%nat /\
    (forall n, draw n = nth n (hw_of sim) 0) /\ window_draws (tank_of v) daily shape i (60 * k) draw /\
    total draw (60 * k) == qsum (hw_of sim) /\ 0 <= qsum (hw_of sim) <= qsum l.
Proof.
  intros [V L0 LC IN ST D LN SH] LK K0 NT.
  assert (MD : forall n, (n < 60 * k)%nat -> nth n (per_minute l) 0 == minute_demand daily shape i n).
  { intros n N. rewrite per_minute_nth by lia. rewrite NT by (apply Nat.div_lt_upper_bound; lia). unfold minute_demand. rewrite LN. reflexivity. }
  assert (LP : length (per_minute l) = (60 * k)%nat) by (rewrite per_minute_length; lia).
  assert (B : forall x, In x (per_minute l) -> 0 <= x < sv_vol v).
  { intros x X. destruct (In_nth _ _ 0 X) as (n & N & <-). rewrite LP in N. rewrite MD by exact N. unfold minute_demand. rewrite LN.
    set (y := nth ((i + n / 60) mod 24) shape 0). assert (Y : In y shape) by (apply nth_In; rewrite LN; apply Nat.mod_upper_bound; lia).
    destruct (SH y Y) as [Y0 Y1]. assert (0 <= daily * y) by (apply qmul_nonneg; lra).
    setoid_replace (daily * y / 60) with (daily * y * (1 # 60)) by field. lra. }
  destruct (sim_just_ok v (per_minute l) V L0 LC IN ST) as (x & r & rest & E1 & SJ & SD & T & LT & F2); [intro Z; rewrite Z in LP; cbn in LP; lia|exact B|].
  set (sim := (sv_supply v + (1 # 10), 0, x) :: rest) in *. exists sim, (fun n => nth n (hw_of sim) 0). split; [exact SJ|].
  assert (LR : length r = (60 * k - 1)%nat) by (rewrite E1 in LP; cbn [length] in LP; lia).
  assert (LH : length (hw_of sim) = (60 * k)%nat) by (unfold hw_of; rewrite map_length; unfold sim; cbn [length]; lia).
  split; [exact LH|]. split; [reflexivity|]. split.
  - split.
    + intros _. unfold sim, hw_of. cbn [map nth snd]. rewrite <- MD by lia. rewrite E1. reflexivity.
    + exists rest. split; [|split].
      * cbn [tk_supply tank_of]. apply (swing_days_proper _ _ _ _ _ SD). rewrite <- LR, <- seq_shift, map_map. apply forall2_seq. intros n N.
        rewrite <- MD by lia. rewrite E1. reflexivity.
      * intros n N. unfold sim, hw_of. cbn [map nth]. change 0 with (snd (0, 0, 0 : Q)) at 1. rewrite map_nth. reflexivity.
      * intros t run hw I. exact (proj1 (T _ _ _ I)).
  - split; [rewrite qsum_wsum, total_wsum, LH; reflexivity|]. destruct (forall2_qsum _ _ F2) as [A C]. rewrite per_minute_sum in C. split; assumption.
Qed.

(** Hours of the day out of a list. *)
Lemma shape_at_ok l k : forall a, (a + k <= length l)%nat -> shape_at l (map Z.of_nat (seq a k)) = Ok (map (fun j => nth j l 0) (seq a k)).
Proof.
  unfold shape_at. induction k as [|k IH]; intros a H; [reflexivity|]. cbn [seq map mapM].
  rewrite (py_nth_nonneg l (Z.of_nat a) (nth a l 0)); [|lia|rewrite Nat2Z.id; apply nth_error_nth'; lia]. cbn [bind]. rewrite IH by lia. reflexivity.
Qed.

Lemma nth_seq_map (f : nat -> Q) a k j : (j < k)%nat -> nth j (map f (seq a k)) 0 = f (a + j)%nat.
Proof. intro H. rewrite nth_indep with (d' := f 0%nat) by (rewrite map_length, seq_length; exact H). rewrite map_nth, seq_nth by exact H. reflexivity. Qed.

Lemma zrange_seq a u : (u <= a)%nat -> zrange (Z.of_nat a - Z.of_nat u) (Z.of_nat a) = map Z.of_nat (seq (a - u) u).
Proof.
  intro H. unfold zrange. replace (Z.to_nat (Z.of_nat a - (Z.of_nat a - Z.of_nat u))) with u by lia.
  rewrite (seq_off u (a - u)), map_map. apply map_ext. intro i. lia.
Qed.

Lemma gph_nth daily (avg : list Q) j : nth j (map (fun f => f * daily) avg) 0 == daily * nth j avg 0.
Proof. destruct (lt_dec j (length avg)) as [L|L]; [rewrite nth_map by exact L; ring|]. rewrite !nth_overflow by (rewrite ?map_length; lia). ring. Qed.

Lemma window_sum daily avg a k : (forall x, In x avg -> 0 <= x) -> 0 <= daily -> (a + k <= length avg)%nat ->
  0 <= qsum (map (fun j => nth j (map (fun f => f * daily) avg) 0) (seq a k)).
Proof.
  intros P D L. assert (F : forall l, (forall x, In x l -> 0 <= x) -> 0 <= qsum l).
  { clear. induction l as [|x l IH]; intro H; cbn [qsum]; [lra|]. pose proof (H x (or_introl eq_refl)). pose proof (IH (fun y Y => H y (or_intror Y))). lra. }
  apply F. intros x X. apply in_map_iff in X. destruct X as (j & <- & J). apply in_seq in J. rewrite gph_nth. apply qmul_nonneg; [exact D|]. apply P, nth_In. lia.
Qed.

Section Prelim.
Variables (s : swing) (sched : schedule) (b : building) (fract inlet : Q) (v : swing_env) (a k u : nat).
Hypothesis DI : design_inlet b = Ok inlet.
Hypothesis EV : env_of s inlet = Ok v.
Hypothesis RD : ls_ready v (bd_daily b) (bd_avg b).
Hypothesis FB : first_shed_block sched = Ok (map Z.of_nat (seq a k), Z.of_nat u).
Hypothesis RU : is_first_shed_run sched a k.
Hypothesis LU : load_up_before sched a u.

Lemma prelim_ok : exists vs vc shed up, swing_prelim s sched b fract = Ok (vs, vc) /\
  window_draws (tank_of v) (bd_daily b) (bd_avg b) a (60 * k) shed /\
  window_draws (tank_of v) (bd_daily b) (bd_avg b) (a - u) (60 * u) up /\
  vs == fract * total shed (60 * k) /\ vc == total up (60 * u).
Proof.
  pose proof (lr_len _ _ _ RD) as LN. pose proof (lr_daily _ _ _ RD) as D0.
  assert (P0 : forall x, In x (bd_avg b) -> 0 <= x) by (intros x X; exact (proj1 (lr_shape _ _ _ RD x X))).
  destruct RU as (K0 & AK & _). destruct LU as (UA & _).
  set (gph := map (fun f => f * bd_daily b) (bd_avg b)) in *. assert (LG : length gph = 24%nat) by (unfold gph; rewrite map_length; exact LN).
  set (xs := map (fun j => nth j gph 0) (seq a k)). set (ys := map (fun j => nth j gph 0) (seq (a - u) u)).
  assert (NX : forall j, (j < k)%nat -> nth j xs 0 == bd_daily b * nth ((a + j) mod 24) (bd_avg b) 0).
  { intros j J. unfold xs. rewrite nth_seq_map by exact J. unfold gph. rewrite gph_nth, Nat.mod_small by lia. reflexivity. }
  assert (NY : forall j, (j < u)%nat -> nth j ys 0 == bd_daily b * nth ((a - u + j) mod 24) (bd_avg b) 0).
  { intros j J. unfold ys. rewrite nth_seq_map by exact J. unfold gph. rewrite gph_nth, Nat.mod_small by lia. reflexivity. }
  destruct (window_sim v (bd_daily b) (bd_avg b) a xs k RD) as (sim & shed & SJ & _ & _ & WD & TS & S0 & S1); [unfold xs; rewrite map_length, seq_length; reflexivity|exact K0|exact NX|].
  assert (X0 : 0 <= qsum xs) by (apply window_sum; [exact P0|lra|lia]). assert (Y0 : 0 <= qsum ys) by (apply window_sum; [exact P0|lra|lia]).
  unfold swing_prelim. fold gph. rewrite FB. cbn [bind]. rewrite shape_at_ok by lia. cbn [bind]. fold xs. rewrite DI. cbn [bind]. rewrite EV. cbn [bind]. rewrite SJ. cbn [bind].
  assert (EF : exists eff, (if qltb 0 (qsum xs) then qdiv (qsum (hw_of sim)) (qsum xs) else Ok 1) = Ok eff /\ qsum xs * eff * fract == fract * total shed (60 * k)).
  { destruct (qltb 0 (qsum xs)) eqn:Z; qbool.
    - exists (qsum (hw_of sim) / qsum xs). rewrite qdiv_ok by lra. split; [reflexivity|]. rewrite TS. field. lra.
    - exists 1. split; [reflexivity|]. rewrite TS. assert (E1 : qsum xs == 0) by lra. assert (E2 : qsum (hw_of sim) == 0) by lra. rewrite E1, E2. ring. }
  destruct EF as (eff & -> & EE). cbn [bind].
  assert (H0 : py_nth (map Z.of_nat (seq a k)) 0 = Ok (Z.of_nat a)).
  { rewrite (py_nth_nonneg _ 0%Z (Z.of_nat a)); [reflexivity|lia|]. destruct k as [|k']; [lia|]. reflexivity. }
  rewrite H0. cbn [bind]. rewrite zrange_seq by exact UA. rewrite shape_at_ok by lia. cbn [bind]. fold ys.
  destruct (Nat.eq_dec u 0) as [U0|U0].
  - exists (qsum xs * eff * fract), (qsum ys), shed, (fun _ => 0). assert (QY : qsum ys = 0) by (unfold ys; rewrite U0; reflexivity).
    replace (0 <? Z.of_nat u)%Z with false by (symmetry; apply Z.ltb_ge; lia). cbn [andb]. split; [reflexivity|]. split; [exact WD|]. split.
    + rewrite U0. split; [intro Z; lia|]. exists []. split; [constructor|]. split; [intros n N; lia|intros ? ? ? []].
    + split; [exact EE|]. rewrite QY, U0. reflexivity.
  - destruct (window_sim v (bd_daily b) (bd_avg b) (a - u) ys u RD) as (sim2 & up & SJ2 & _ & _ & WD2 & TS2 & S2 & S3); [unfold ys; rewrite map_length, seq_length; reflexivity|lia|exact NY|].
    replace (0 <? Z.of_nat u)%Z with true by (symmetry; apply Z.ltb_lt; lia). cbn [andb]. destruct (qltb 0 (qsum ys)) eqn:Z; qbool.
    + rewrite SJ2. cbn [bind]. rewrite qdiv_ok by lra. cbn [bind]. do 2 eexists. exists shed, up. split; [reflexivity|]. split; [exact WD|]. split; [exact WD2|].
      split; [exact EE|]. rewrite TS2. field. lra.
    + do 2 eexists. exists shed, up. split; [reflexivity|]. split; [exact WD|]. split; [exact WD2|]. split; [exact EE|]. rewrite TS2. lra.
Qed.

Lemma day_from_nth24 l i j : length l = 24%nat -> (i <= 24)%nat -> (j < 24)%nat -> nth j (day_from l i) 0 = nth ((i + j) mod 24) l 0.
Proof.
  intros L I J. destruct (Nat.eq_dec i 24) as [->|N]; [|apply day_from_nth; lia].
  unfold day_from. rewrite nth_firstn by exact J. rewrite <- L at 1. rewrite skipn_app, skipn_all, Nat.sub_diag. cbn [skipn app].
  f_equal. replace (24 + j)%nat with (j + 1 * 24)%nat by lia. rewrite Nat.mod_add by lia. symmetry. apply Nat.mod_small, J.
Qed.

Lemma running_ls_ok gen : exists rv mix day vs shed, swing_running_ls s sched b gen fract = Ok (rv, mix) /\
  (exists vc, swing_prelim s sched b fract = Ok (vs, vc)) /\
  window_draws (tank_of v) (bd_daily b) (bd_avg b) a (60 * k) shed /\ vs == fract * total shed (60 * k) /\
  window_draws (tank_of v) (bd_daily b) (bd_avg b) (a + k) day_minutes day /\ mix * bd_daily b == total day day_minutes /\
  exists deficit, rv == (deficit + vs) * ((sv_storage v - inlet) / (sv_supply v - inlet)) /\ 0 <= deficit /\
    (forall n, (n <= day_minutes)%nat -> total (fun j => day j - minute_gen sched gen (a + k) j) n <= deficit) /\
    exists n, (n <= day_minutes)%nat /\ total (fun j => day j - minute_gen sched gen (a + k) j) n == deficit.
Proof.
  destruct prelim_ok as (vs & vc & shed & up & PV & WS & _ & ES & _).
  pose proof (lr_len _ _ _ RD) as LN. pose proof (lr_daily _ _ _ RD) as D0. destruct RU as (K0 & AK & _).
  destruct (first_shed_block_spec _ _ _ FB) as (L24 & _).
  assert (PR : exists prof, mapM (fun h => do k <- py_nth sched h; Ok (if String.eqb k "shed" then 0 else gen)) hours24 = Ok prof).
  { apply mapM_total. intros x X. rewrite hours24_seq in X. apply in_map_iff in X. destruct X as (i & <- & Hi). apply in_seq in Hi.
    destruct (nth_error sched i) as [y|] eqn:E; [|apply nth_error_None in E; lia].
    rewrite (py_nth_nonneg sched (Z.of_nat i) y); [eexists; reflexivity|lia|rewrite Nat2Z.id; exact E]. }
  destruct PR as (prof & PR). pose proof PR as PR'. rewrite hours24_seq in PR'. apply prof_spec in PR'. destruct PR' as [LPf NPf].
  assert (LA : py_nth (map Z.of_nat (seq a k)) (-1) = Ok (Z.of_nat (a + k - 1))).
  { destruct k as [|k']; [lia|]. rewrite seq_S, map_app. cbn [map]. unfold py_nth. cbn [Z.ltb]. rewrite app_length, map_length, seq_length. cbn [length].
    change (-1 <? 0)%Z with true. cbv beta iota zeta.
    replace ((-1 + Z.of_nat (k' + 1) <? 0) || (Z.of_nat (k' + 1) <=? -1 + Z.of_nat (k' + 1)))%Z with false.
    2:{ symmetry. apply orb_false_iff. split; [apply Z.ltb_ge; lia|apply Z.leb_gt; lia]. }
    replace (Z.to_nat (-1 + Z.of_nat (k' + 1))) with k' by lia. rewrite nth_error_app2 by (rewrite map_length, seq_length; lia).
    rewrite map_length, seq_length, Nat.sub_diag. cbn. do 2 f_equal. lia. }
  set (gph := map (fun f => f * bd_daily b) (bd_avg b)) in *. assert (LG : length gph = 24%nat) by (unfold gph; rewrite map_length; exact LN).
  destruct (window_sim v (bd_daily b) (bd_avg b) (a + k) (day_from gph (a + k)) 24 RD) as (sim & day & SJ & LH & DE & WD & TS & S0 & S1); [apply day_from_length; lia|lia| |].
  { intros j J. rewrite day_from_nth24 by lia. unfold gph. rewrite gph_nth. reflexivity. }
  unfold swing_running_ls. rewrite DI. cbn [bind]. rewrite FB. cbn [bind fst]. rewrite PV. cbn [bind]. rewrite PR. cbn [bind]. rewrite LA. cbn [bind].
  replace (Z.to_nat (Z.of_nat (a + k - 1) + 1)) with (a + k)%nat by lia. fold gph. rewrite EV. cbn [bind]. rewrite SJ. cbn [bind]. rewrite qdiv_ok by lra. cbn [bind].
  set (gl := per_minute (day_from prof (a + k))). assert (LGL : length gl = length (hw_of sim)) by (unfold gl; rewrite per_minute_length, day_from_length by lia; lia).
  destruct (vsub_total gl (hw_of sim) LGL) as (diff & VS). rewrite VS. cbn [bind]. pose proof (lr_inlet _ _ _ RD) as IN.
  assert (IV : sv_inlet v = inlet) by (unfold env_of in EV; destruct (sw_tm_vol s), (sw_tm_cap s); try discriminate EV; apply ok_inj in EV; subst v; reflexivity).
  rewrite IV in IN. rewrite qdiv_ok by lra. cbn [bind fst].
  do 2 eexists. exists day, vs, shed. split; [reflexivity|]. split; [exists vc; reflexivity|]. split; [exact WS|]. split; [exact ES|]. split; [exact WD|]. split.
  { rewrite <- TS. change (60 * 24)%nat with day_minutes. apply qdiv_mul. lra. }
  pose proof (worst_diff gl (hw_of sim) LGL diff VS) as W. rewrite LH in W. change (60 * 24)%nat with day_minutes in W.
  assert (TE : forall n, (n <= day_minutes)%nat -> total (fun i => nth i (hw_of sim) 0 - nth i gl 0) n == total (fun j => day j - minute_gen sched gen (a + k) j) n).
  { intros n N. apply total_ext. intros j J. assert (JD : (j < 1440)%nat) by (unfold day_minutes in N; lia). rewrite DE. unfold gl. rewrite per_minute_nth by (rewrite day_from_length by lia; lia).
    rewrite day_from_nth24 by (try lia; apply Nat.div_lt_upper_bound; lia). rewrite NPf by (apply Nat.mod_upper_bound; lia). rewrite Nat.add_0_l. unfold minute_gen, shed_gen. reflexivity. }
  eexists. split; [reflexivity|]. destruct (worst_deficit (cumsum diff)) as [m|].
  - destruct W as (M0 & M1 & n & N & EN). split; [lra|]. split; [intros j J; rewrite <- TE by exact J; apply M1, J|]. exists n. split; [exact N|]. rewrite <- TE by exact N. exact EN.
  - split; [lra|]. split; [intros j J; rewrite <- TE by exact J; apply W, J|]. exists 0%nat. split; [lia|reflexivity].
Qed.
End Prelim.

Lemma gen_ls_sw s sched d b slope fract g a k u vs vc :
  swing_gen_ls s sched d b slope fract = Ok g -> first_shed_block sched = Ok (map Z.of_nat (seq a k), Z.of_nat u) ->
  swing_prelim s sched b fract = Ok (vs, vc) ->
  exists ng, swing_normal_gen s b = Ok ng /\ ng <= g /\
    forall nc sc lp np sp, ctl d "normal" = Ok nc -> ctl d "shed" = Ok sc ->
      strat_pct (sw_dhw s) (ct_on_sensor nc) (ct_on_trigger nc) slope = Ok np ->
      strat_pct (sw_dhw s) (ct_on_sensor (ctl_load_up d nc)) (ct_on_trigger (ctl_load_up d nc)) slope = Ok lp ->
      strat_pct (sw_dhw s) (ct_on_sensor sc) (ct_on_trigger sc) slope = Ok sp ->
      ((0 < u)%nat -> sp < lp -> vs * (lp - np) / (lp - sp) + vc <= g * qz (Z.of_nat u)) /\
      (g == ng \/ (0 < u)%nat /\ sp < lp /\ vs * (lp - np) / (lp - sp) + vc == g * qz (Z.of_nat u)).
Proof.
  unfold swing_gen_ls. intros H FB PV. apply bind_ok in H. destruct H as (ng & NG & H). exists ng. split; [exact NG|].
  rewrite FB in H. cbn [bind snd] in H. destruct (Z.of_nat u =? 0)%Z eqn:U.
  - apply Z.eqb_eq in U. apply ok_inj in H. subst g. split; [lra|]. intros. split; [intro; lia|left; reflexivity].
  - apply Z.eqb_neq in U. rewrite PV in H. cbn [bind] in H.
    apply bind_ok in H. destruct H as (nc & H4 & H). apply bind_ok in H. destruct H as (sc & H5 & H).
    apply bind_ok in H. destruct H as (lp & H7 & H). apply bind_ok in H. destruct H as (np & H6 & H). apply bind_ok in H. destruct H as (sp & H8 & H).
    assert (UP : 0 < qz (Z.of_nat u)) by (change 0 with (inject_Z 0); unfold qz; rewrite <- Zlt_Qlt; lia).
    destruct (Qle_bool (lp - sp) 0) eqn:BD; qbool; apply ok_inj in H; subst g.
    + split; [lra|]. intros nc' sc' lp' np' sp' X1 X2 X3 X4 X5. rewrite X1 in H4. apply ok_inj in H4. subst nc'. rewrite X2 in H5. apply ok_inj in H5. subst sc'.
      rewrite X4 in H7. apply ok_inj in H7. subst lp'. rewrite X5 in H8. apply ok_inj in H8. subst sp'. split; [intros; lra|left; reflexivity].
    + split; [apply qmax_l|]. intros nc' sc' lp' np' sp' X1 X2 X3 X4 X5. rewrite X1 in H4. apply ok_inj in H4. subst nc'. rewrite X2 in H5. apply ok_inj in H5. subst sc'.
      rewrite X3 in H6. apply ok_inj in H6. subst np'. rewrite X4 in H7. apply ok_inj in H7. subst lp'. rewrite X5 in H8. apply ok_inj in H8. subst sp'.
      set (q := vs * (lp - np) / (lp - sp) + vc) in *. assert (E : q == q / qz (Z.of_nat u) * qz (Z.of_nat u)) by (symmetry; apply qdiv_mul; lra). split.
      * intros _ _. rewrite E at 1. apply Qmult_le_compat_r; [apply qmax_r|lra].
      * destruct (qmax_spec ng (q / qz (Z.of_nat u))) as [[_ X]|[_ X]]; rewrite X; [right|left; reflexivity]. split; [lia|]. split; [lra|exact E].
Qed.
