(** The swing-tank running volume, the sizing run, and uniqueness of the tank's trajectory. *)
From Verif Require Import Prelude M_StratifiedTank M_Building M_Heater M_Sizing S_Sizing L_Building L_Sizing L_Sizing2 L_Sizing3 L_Sizing4 M_Swing S_Swing L_Swing L_Swing2.
Open Scope Q_scope.

Definition covers v run daily shape i W mix draw := day_covered (tank_of v) run daily shape i W mix draw.

Lemma peaks_ok v run daily shape : swing_ready v run daily shape -> forall idxs best m0,
  (forall i, In i idxs -> (i < 24)%nat) -> 0 <= best ->
  exists W mix, swing_peaks v run daily shape idxs best m0 = Ok (W, mix) /\ best <= W /\
    (forall i, In i idxs -> exists mi draw, covers v run daily shape i W mi draw /\ 0 <= mi <= qsum shape) /\
    ((W = best /\ mix = m0) \/
     exists i draw n, In i idxs /\ covers v run daily shape i W mix draw /\ 0 <= mix <= qsum shape /\
       (n <= day_minutes)%nat /\ total (fun j => draw j - daily * mix / run / 60) n == W).
Proof.
  intros R. induction idxs as [|i idxs IH]; intros best m0 B B0; cbn [swing_peaks].
  - exists best, m0. split; [reflexivity|]. split; [lra|]. split; [intros i []|]. left. auto.
  - destruct (peak_ok v run daily shape i R (B i (or_introl eq_refl))) as (mi & d & draw & P & DD & MX & MB & _ & C).
    rewrite P. cbn [bind fst snd].
    assert (Bi : forall j, In j idxs -> (j < 24)%nat) by (intros j J; apply B; right; exact J).
    assert (NEXT : forall best' m', best <= best' ->
      (forall n, (n <= day_minutes)%nat -> total (fun j => draw j - daily * mi / run / 60) n <= best') ->
      ((best' = best /\ m' = m0) \/
       (m' = mi /\ exists n, (n <= day_minutes)%nat /\ total (fun j => draw j - daily * mi / run / 60) n == best')) ->
      exists W mix, swing_peaks v run daily shape idxs best' m' = Ok (W, mix) /\ best <= W /\
       (forall j, In j (i :: idxs) -> exists mi draw, covers v run daily shape j W mi draw /\ 0 <= mi <= qsum shape) /\
       ((W = best /\ mix = m0) \/
        exists j draw n, In j (i :: idxs) /\ covers v run daily shape j W mix draw /\ 0 <= mix <= qsum shape /\
          (n <= day_minutes)%nat /\ total (fun j => draw j - daily * mix / run / 60) n == W)).
    { intros best' m' LE CV AT. destruct (IH best' m' Bi ltac:(lra)) as (W & mix & E & LW & CW & O).
      assert (CI : covers v run daily shape i W mi draw).
      { split; [exact DD|]. split; [exact MX|]. intros n N. pose proof (CV n N). lra. }
      exists W, mix. split; [exact E|]. split; [lra|]. split.
      - intros j [<-|J]; [exists mi, draw; split; assumption|exact (CW j J)].
      - destruct O as [[-> ->]|(j & dr & n & J & X)].
        + destruct AT as [[A1 A2]|[-> (n & N & EQ)]]; [left; auto|].
          right. exists i, draw, n. split; [left; reflexivity|]. split; [exact CI|]. split; [exact MB|]. split; assumption.
        + right. exists j, dr, n. split; [right; exact J|exact X]. }
    destruct d as [m|].
    + destruct C as (M0 & CV & AT). destruct (qltb best m) eqn:Q; qbool.
      * apply NEXT; [lra|exact CV|]. right. split; [reflexivity|exact AT].
      * apply NEXT; [lra| |left; auto]. intros n N. pose proof (CV n N). lra.
    + apply NEXT; [lra| |left; auto]. intros n N. pose proof (C n N). lra.
Qed.

(** ** The probed hours *)
Lemma onset_peaks run shape diff i : length shape = 24%nat -> 0 < run ->
  vsub (repeat (1 / run) 24) shape = Ok diff -> (In i (peak_indices diff) <-> onset run shape i).
Proof.
  intros L R V. apply vsub_spec in V. destruct V as (_ & LD & ND).
  rewrite peak_indices_in. unfold onset, day_fun. rewrite LD, L.
  assert (G : forall n, (n < 24)%nat -> nth n diff 0 == 1 / run - nth n shape 0).
  { intros n N. rewrite ND. rewrite nth_indep with (d' := 1 / run) by (rewrite repeat_length; exact N).
    rewrite nth_repeat. reflexivity. }
  split; intros (A & B & C); (split; [exact A|]).
  - rewrite Nat.mod_small in C by exact A. replace (i + 24 - 1)%nat with (i + 23)%nat in B by lia.
    pose proof (G i A). pose proof (G ((i + 23) mod 24)%nat (Nat.mod_upper_bound _ 24 ltac:(lia))). split; lra.
  - rewrite (Nat.mod_small i) by exact A. replace (i + 24 - 1)%nat with (i + 23)%nat by lia.
    pose proof (G i A). pose proof (G ((i + 23) mod 24)%nat (Nat.mod_upper_bound _ 24 ltac:(lia))). split; lra.
Qed.
Lemma extended_in peaks i : (forall p, In p peaks -> (p < 24)%nat) ->
  (In i (extended_peaks peaks) <-> (i < 24)%nat /\ (In i peaks \/ exists p, In p peaks /\ i = S p)).
Proof.
  intro P. unfold extended_peaks. rewrite filter_In, in_seq, existsb_exists. split.
  - intros [[_ A] (x & X & E)]. apply Nat.eqb_eq in E. subst x. split; [lia|].
    apply in_flat_map in X. destruct X as (p & PP & [<-|[<-|[]]]); [left; exact PP|right; exists p; auto].
  - intros [A B]. split; [lia|]. exists i. split; [|apply Nat.eqb_refl]. apply in_flat_map.
    destruct B as [B|(p & B & ->)]; [exists i|exists p]; (split; [exact B|cbn; auto]).
Qed.

Lemma running_ok s b inlet v : design_inlet b = Ok inlet -> env_of s inlet = Ok v ->
  swing_ready v (dh_run (sw_dhw s)) (bd_daily b) (bd_peak b) ->
  exists mo V W, swing_running s b = Ok (mo, V) /\ 0 <= W /\
    V == W * ((sv_storage v - inlet) / (sv_supply v - inlet)) /\
    (forall i, probed (dh_run (sw_dhw s)) (bd_peak b) i ->
       exists mi draw, covers v (dh_run (sw_dhw s)) (bd_daily b) (bd_peak b) i W mi draw /\ 0 <= mi <= qsum (bd_peak b)) /\
    ((W == 0 /\ (mo = None \/ mo = Some 1)) \/
     exists i draw mix n, probed (dh_run (sw_dhw s)) (bd_peak b) i /\ mo = Some mix /\ 0 <= mix <= qsum (bd_peak b) /\
       covers v (dh_run (sw_dhw s)) (bd_daily b) (bd_peak b) i W mix draw /\
       (n <= day_minutes)%nat /\ total (fun j => draw j - bd_daily b * mix / dh_run (sw_dhw s) / 60) n == W).
Proof.
  intros Hi Hv R. unfold swing_running. rewrite Hi. cbn [bind].
  pose proof (sr_run _ _ _ _ R) as RR. pose proof (sr_len _ _ _ _ R) as L.
  rewrite qdiv_ok by lra. cbn [bind].
  destruct (vsub_total (repeat (1 / dh_run (sw_dhw s)) 24) (bd_peak b)) as (diff & VS); [rewrite repeat_length, L; reflexivity|].
  rewrite VS. cbn [bind].
  pose proof (fun i => onset_peaks _ _ diff i L RR VS) as ON.
  assert (P24 : forall p, In p (peak_indices diff) -> (p < 24)%nat) by (intros p P; apply ON in P; apply P).
  assert (PR : forall i, In i (extended_peaks (peak_indices diff)) <-> probed (dh_run (sw_dhw s)) (bd_peak b) i).
  { intro i. rewrite (extended_in _ _ P24). unfold probed. split; intros [A B]; (split; [exact A|]).
    - destruct B as [B|(p & B & ->)]; [left; apply ON; exact B|right; exists p; split; [apply ON; exact B|reflexivity]].
    - destruct B as [B|(p & B & ->)]; [left; apply ON; exact B|right; exists p; split; [apply ON; exact B|reflexivity]]. }
  assert (EN : sv_inlet v = inlet).
  { unfold env_of in Hv. destruct (sw_tm_vol s), (sw_tm_cap s); try discriminate. apply ok_inj in Hv. subst v. reflexivity. }
  pose proof (sr_inlet _ _ _ _ R) as SI. rewrite EN in SI.
  destruct (peak_indices diff) as [|p0 ps] eqn:PK.
  - exists None, 0, 0. split; [reflexivity|]. split; [lra|]. split; [ring|]. split; [|left; split; [reflexivity|auto]].
    intros i X. apply PR in X. destruct X.
  - rewrite Hv. cbn [bind].
    destruct (peaks_ok v _ _ _ R (extended_peaks (p0 :: ps)) 0 1) as (W & mix & E & W0 & CV & O).
    { intros i X. apply PR in X. apply X. }
    { lra. }
    rewrite E. cbn [bind]. rewrite qdiv_ok by lra. cbn [bind].
    do 3 eexists. split; [reflexivity|]. split; [exact W0|]. split; [reflexivity|]. split.
    + intros i X. destruct (CV i (proj2 (PR i) X)) as (mi & draw & C & B). exists mi, draw. split; [exact C|exact B].
    + destruct O as [[-> ->]|(i & draw & n & I & C & MB & N & T)]; [left; split; [reflexivity|auto]|].
      right. exists i, draw, mix, n. split; [exact (proj1 (PR i) I)|]. split; [reflexivity|]. split; [exact MB|]. split; [exact C|]. split; [exact N|exact T].
Qed.

(** ** The trajectory is determined by the specification *)
Lemma thermostat_unique k on t2 t2' a a' b b' r r' : 0 < tk_vol k -> 0 <= tk_cap k -> t2 == t2' ->
  thermostat k on t2 a b r -> thermostat k on t2' a' b' r' -> a = a' /\ b == b'.
Proof.
  intros V C E (H1 & [R0 R1] & H) (H1' & [R0' R1'] & H').
  assert (VB : 0 < tk_vol k * btu_gal_f) by (apply qmul_pos; [exact V|reflexivity]).
  assert (MC : 0 <= minute_btu (tk_cap k)) by (unfold minute_btu; apply qdiv_nonneg; [lra|reflexivity]).
  set (c := minute_btu (tk_cap k)) in *. set (vb := tk_vol k * btu_gal_f) in *. clearbody c vb.
  assert (RC : 0 <= r * c /\ r * c <= c) by (split; [apply qmul_nonneg; assumption|assert (0 <= (1 - r) * c) by (apply qmul_nonneg; lra); lra]).
  assert (RC' : 0 <= r' * c /\ r' * c <= c) by (split; [apply qmul_nonneg; assumption|assert (0 <= (1 - r') * c) by (apply qmul_nonneg; lra); lra]).
  assert (CAN : forall x y, vb * x == vb * y -> x == y).
  { intros x y Q. apply Qle_antisym; apply (mul_le_inv vb); lra. }
  assert (LEC : forall x y, x <= y -> vb * x <= vb * y) by (intros x y Q; apply Qmult_le_l; assumption).
  assert (CE : vb * (b' - t2') == vb * b' - vb * t2) by (rewrite <- E; ring).
  assert (CE1 : vb * (b - t2) == vb * b - vb * t2) by ring.
  destruct on.
  - destruct H as [(-> & X & Y)|(-> & X & Y & Z)]; destruct H' as [(-> & X' & Y')|(-> & X' & Y' & Z')].
    + split; [reflexivity|]. apply CAN. assert (r * c == c) by (rewrite X; ring). assert (r' * c == c) by (rewrite X'; ring). lra.
    + exfalso. assert (r * c == c) by (rewrite X; ring). pose proof (LEC _ _ Y).
      assert (vb * (tk_supply k + 8 - t2') == vb * (tk_supply k + 8) - vb * t2) by (rewrite <- E; ring). lra.
    + exfalso. assert (r' * c == c) by (rewrite X'; ring). pose proof (LEC _ _ Y').
      assert (vb * (tk_supply k + 8 - t2) == vb * (tk_supply k + 8) - vb * t2) by ring. lra.
    + split; [reflexivity|]. apply CAN. pose proof (LEC _ _ X). pose proof (LEC _ _ X').
      destruct Y as [Y|Y]; destruct Y' as [Y'|Y'].
      * assert (r * c == 0) by (rewrite Y; ring). assert (r' * c == 0) by (rewrite Y'; ring). lra.
      * assert (r * c == 0) by (rewrite Y; ring). assert (vb * b' == vb * (tk_supply k + 8)) by (rewrite Y'; reflexivity). lra.
      * assert (r' * c == 0) by (rewrite Y'; ring). assert (vb * b == vb * (tk_supply k + 8)) by (rewrite Y; reflexivity). lra.
      * rewrite Y, Y'. reflexivity.
  - destruct H as [(X & -> & Y)|(X & -> & Y & Z)]; destruct H' as [(X' & -> & Y')|(X' & -> & Y' & Z')]; try (exfalso; lra).
    + split; [reflexivity|]. apply CAN. assert (r * c == 0) by (rewrite Y; ring). assert (r' * c == 0) by (rewrite Y'; ring). lra.
    + split; [reflexivity|]. apply CAN. pose proof (LEC _ _ Z). pose proof (LEC _ _ Z').
      destruct Y as [Y|Y]; destruct Y' as [Y'|Y'].
      * assert (r * c == c) by (rewrite Y; ring). assert (r' * c == c) by (rewrite Y'; ring). lra.
      * assert (r * c == c) by (rewrite Y; ring). assert (vb * b' == vb * tk_supply k) by (rewrite Y'; reflexivity). lra.
      * assert (r' * c == c) by (rewrite Y'; ring). assert (vb * b == vb * tk_supply k) by (rewrite Y; reflexivity). lra.
      * rewrite Y, Y'. reflexivity.
Qed.

Lemma swing_days_unique k : 0 < tk_vol k -> 0 <= tk_cap k -> tk_inlet k < tk_supply k ->
  forall on t l tr, swing_days k on t l tr -> (forall a b c, In (a, b, c) tr -> tk_supply k <= a) -> tk_supply k <= t ->
  forall t' tr', t == t' -> swing_days k on t' l tr' ->
  Forall2 (fun p q => fst (fst p) == fst (fst q) /\ snd p == snd q) tr tr'.
Proof.
  intros V C I on t l tr H. induction H as [|on t x r on1 t2 t1 run hw rest M ID TH SD IH]; intros A T t' tr' E H';
    inversion H' as [|? ? ? ? on1' t2' t1' run' hw' rest' M' ID' TH' SD']; subst; constructor.
  - assert (HW : hw == hw').
    { unfold meets_demand in M, M'. rewrite <- E in M'.
      assert (Z : (hw - hw') * (t - tk_inlet k) == 0) by lra. apply Qmult_integral in Z. destruct Z; lra. }
    assert (T2 : t2 == t2').
    { unfold idle_temp in ID, ID'. rewrite <- E, <- HW in ID'.
      assert (Z : (tk_vol k * btu_gal_f) * (t2 - t2') == 0) by lra. apply Qmult_integral in Z.
      assert (0 < tk_vol k * btu_gal_f) by (apply qmul_pos; [exact V|reflexivity]). destruct Z; lra. }
    destruct (thermostat_unique k on t2 t2' _ _ _ _ _ _ V C T2 TH TH') as [_ T1]. cbn [fst snd]. split; assumption.
  - assert (HW : hw == hw').
    { unfold meets_demand in M, M'. rewrite <- E in M'.
      assert (Z : (hw - hw') * (t - tk_inlet k) == 0) by lra. apply Qmult_integral in Z. destruct Z; lra. }
    assert (T2 : t2 == t2').
    { unfold idle_temp in ID, ID'. rewrite <- E, <- HW in ID'.
      assert (Z : (tk_vol k * btu_gal_f) * (t2 - t2') == 0) by lra. apply Qmult_integral in Z.
      assert (0 < tk_vol k * btu_gal_f) by (apply qmul_pos; [exact V|reflexivity]). destruct Z; lra. }
    destruct (thermostat_unique k on t2 t2' _ _ _ _ _ _ V C T2 TH TH') as [O1 T1]. subst on1'.
    apply (IH (fun a b c X => A a b c (or_intror X)) (A _ _ _ (or_introl eq_refl)) t1' rest' T1 SD').
Qed.
