(** Lemmas for the engine's plots (C68). *)
From Coq Require Import Lia Lqa.
From Verif Require Import Prelude M_StratifiedTank M_MixedTank M_EnergyTank M_Building M_Heater M_Sizing S_Integral S_Sizing
  M_Step M_Swing M_MPRTP M_Engine M_EngineOut S_Engine S_EngineSize S_EngineOut L_Building L_Sizing L_Sizing2 L_Sizing3 L_Sizing4
  P_Sizing P_Sizing2 P_Swing2 L_Engine8 P_Engine7.
Open Scope Q_scope.

(** ** Figures *)

Lemma combine_nth_error {A B} (l : list A) (l' : list B) k a b :
  nth_error l k = Some a -> nth_error l' k = Some b -> nth_error (combine l l') k = Some (a, b).
Proof.
  revert l' k. induction l as [|x l IH]; intros [|y l'] [|k]; cbn; try discriminate.
  - intros [= ->] [= ->]. reflexivity.
  - apply IH.
Qed.

Lemma seq_nth_error n k : (k < n)%nat -> nth_error (seq 0 n) k = Some k.
Proof. intro H. rewrite (nth_error_nth' _ 0%nat) by (rewrite seq_length; exact H). rewrite seq_nth by exact H. reflexivity. Qed.

Lemma figure_draws xs ys i : length xs = length ys -> draws (figure_of xs ys i) xs ys i.
Proof.
  intro L. constructor; cbn [figure_of fg_x fg_y fg_marks fg_steps fg_active]; auto.
  - rewrite map_length, !combine_length, seq_length. lia.
  - intros k x y X Y. assert (K : (k < length xs)%nat) by (apply nth_error_Some; rewrite X; discriminate).
    exists (Z.of_nat k =? i)%Z. split; [|apply Z.eqb_eq].
    rewrite nth_error_map, (combine_nth_error _ _ k k (x, y)); [reflexivity|apply seq_nth_error; exact K|].
    apply combine_nth_error; assumption.
  - rewrite map_length, seq_length. reflexivity.
  - intros k st H. rewrite nth_error_map in H.
    destruct (nth_error (seq 0 (length xs)) k) as [k'|] eqn:E; [|discriminate]. cbn in H. injection H as <-.
    assert (K : (k < length xs)%nat) by (rewrite <- (seq_length (length xs) 0); apply nth_error_Some; rewrite E; discriminate).
    rewrite (seq_nth_error _ _ K) in E. injection E as <-. eexists. split; [reflexivity|]. split.
    + rewrite !map_length, !combine_length, !seq_length. lia.
    + intros j v J. rewrite nth_error_map in J.
      destruct (nth_error (seq 0 (length xs)) j) as [j'|] eqn:E; [|discriminate]. cbn in J. injection J as <-.
      assert (K' : (j < length xs)%nat) by (rewrite <- (seq_length (length xs) 0); apply nth_error_Some; rewrite E; discriminate).
      rewrite (seq_nth_error _ _ K') in E. injection E as <-. apply Nat.eqb_eq.
Qed.

(** ** The sweep of a pooled system *)

Lemma loop_total K b f hs : forall s, (forall h, In h hs -> exists o, curve_point K (dh_set_run s h) b f = Ok o) ->
  exists s1 pts, curve_loop K s b f hs = (s1, Ok pts) /\
    forall n, (n <= length hs)%nat ->
      (forall h, In h (firstn n hs) -> exists o, curve_point K (dh_set_run s h) b f = Ok (Some o)) -> (n <= length pts)%nat.
Proof.
  induction hs as [|h r IH]; intros s H.
  - exists s, []. split; [reflexivity|]. intros n L _. cbn in *. lia.
  - cbn [curve_loop]. destruct (H h (or_introl eq_refl)) as [[[c v]|] E]; rewrite E.
    + destruct (IH (dh_set_run s h)) as (s1 & pts & L & N).
      { intros h' I. destruct (H h' (or_intror I)) as [o O]. exists o. exact O. }
      rewrite L. exists s1, ((h, c, v) :: pts). split; [reflexivity|].
      intros [|n] Ln G; [lia|]. cbn [length]. apply le_n_S. apply N; [cbn in Ln; lia|].
      intros h' I. apply G. right. exact I.
    + exists (dh_set_run s h), []. split; [reflexivity|]. intros [|n] _ G; [lia|]. exfalso.
      destruct (G h (or_introl eq_refl)) as [o O]. congruence.
Qed.

Definition running_at (b : building) (h : Q) : Q := running_of_diff (hourly_diff (bd_daily b / h) (bd_daily b) (bd_peak b)).

Lemma running_at_mono b h1 h2 : length (bd_peak b) = 24%nat -> (forall x, In x (bd_peak b) -> 0 <= x) -> qsum (bd_peak b) <= 1 ->
  0 < bd_daily b -> 0 < h2 -> h2 <= h1 -> h1 <= 24 -> running_at b h2 <= running_at b h1.
Proof.
  intros L24 Sh Sq Hd h2p Lt h1u. assert (h1p : 0 < h1) by lra. unfold running_at. apply running_antitone.
  - intro E. rewrite E in L24. discriminate.
  - rewrite L24. change (qz (Z.of_nat 24)) with 24.
    setoid_replace (bd_daily b / h1 * 24) with (bd_daily b * 24 / h1) by (field; lra).
    apply qle_div_iff; [exact h1p|].
    assert (Q0 : 0 <= qsum (bd_peak b)) by (apply qsum_nonneg; exact Sh).
    assert (h1 * qsum (bd_peak b) <= 24 * 1).
    { apply Qle_trans with (24 * qsum (bd_peak b)); [apply Qmult_le_compat_r; assumption|]. rewrite !(Qmult_comm 24). apply Qmult_le_compat_r; [exact Sq|discriminate]. }
    assert (bd_daily b * (h1 * qsum (bd_peak b)) <= bd_daily b * (24 * 1)).
    { rewrite !(Qmult_comm (bd_daily b)). apply Qmult_le_compat_r; lra. }
    lra.
  - apply qdiv_le_iff; [assumption|]. setoid_replace (bd_daily b / h2 * h1) with (bd_daily b * h1 / h2) by (field; lra).
    apply qle_div_iff; [assumption|]. rewrite !(Qmult_comm (bd_daily b)). apply Qmult_le_compat_r; lra.
Qed.

Lemma running_of_nonneg d : 0 <= running_of_diff d.
Proof.
  unfold running_of_diff. destruct (peak_indices d) as [|i l]; [discriminate|].
  assert (G : forall l v, 0 <= v -> 0 <= fold_left (fun v idx => match worst_deficit (cumsum (skipn idx (d ++ d))) with
     | None => v | Some m => qmax v m end) l v).
  { intro l'. induction l' as [|x r IH]; intros v V; cbn [fold_left]; [exact V|]. apply IH.
    destruct (worst_deficit _) as [m|]; [|exact V]. apply Qle_trans with v; [exact V|apply qmax_l]. }
  apply G. discriminate.
Qed.

Lemma base_running_at s b c h : 0 < h -> base_running (dh_set_run s h) b c = Ok (running_at b h).
Proof. intro H. unfold base_running. cbn [dh_set_run dh_run]. rewrite qdiv_ok by lra. reflexivity. Qed.

Lemma running_at_pos b h x : length (bd_peak b) = 24%nat -> (forall x, In x (bd_peak b) -> 0 <= x) -> qsum (bd_peak b) <= 1 ->
  0 < bd_daily b -> 0 < h -> h <= 24 -> In x (bd_peak b) -> 1 < h * x -> 0 < running_at b h.
Proof.
  intros L24 Sh Sq Hd h0 h24 I X. apply In_nth with (d := 0) in I. destruct I as (k & Kl & Kx).
  assert (NE : bd_peak b <> []) by (intro E; rewrite E in L24; discriminate).
  assert (H1 : bd_daily b * qsum (bd_peak b) <= bd_daily b / h * qz (Z.of_nat (length (bd_peak b)))).
  { rewrite L24. change (qz (Z.of_nat 24)) with 24.
    setoid_replace (bd_daily b / h * 24) with (bd_daily b * 24 / h) by (field; lra).
    apply qle_div_iff; [exact h0|].
    assert (Q0 : 0 <= qsum (bd_peak b)) by (apply qsum_nonneg; exact Sh).
    assert (h * qsum (bd_peak b) <= 24 * 1).
    { apply Qle_trans with (24 * qsum (bd_peak b)); [apply Qmult_le_compat_r; assumption|]. rewrite !(Qmult_comm 24). apply Qmult_le_compat_r; [exact Sq|discriminate]. }
    assert (bd_daily b * (h * qsum (bd_peak b)) <= bd_daily b * (24 * 1)).
    { rewrite !(Qmult_comm (bd_daily b)). apply Qmult_le_compat_r; lra. }
    lra. }
  pose proof (c35_never_negative _ _ _ k 1 NE H1) as C. cbn [level] in C. fold (running_at b h) in C. rewrite Nat.add_0_r in C.
  unfold demand_at, steady in C. rewrite Nat.mod_small in C by exact Kl. rewrite Kx in C.
  assert (C' : 0 <= running_at b h + bd_daily b / h - bd_daily b * x).
  { eapply Qle_trans; [exact C|]. apply qmin_r. }
  assert (bd_daily b / h < bd_daily b * x).
  { apply qdiv_lt_iff; [exact h0|]. setoid_replace (bd_daily b * x * h) with (h * x * bd_daily b) by ring.
    setoid_replace (bd_daily b) with (1 * bd_daily b) at 1 by ring. apply Qmult_lt_compat_r; assumption. }
  lra.
Qed.

Lemma min_run_pos b lo : (forall x, In x (bd_peak b) -> 0 <= x) -> min_run_hr b = Ok lo -> 0 < lo.
Proof.
  intros Sh Hlo. unfold min_run_hr in Hlo. destruct (bd_peak b) as [|x r]; [discriminate|].
  apply bind_ok in Hlo. destruct Hlo as (y & Y1 & Y). apply qdiv_inv in Y1. destruct Y1 as [Z ->]. apply ok_inj in Y. subst lo.
  assert (M0 : 0 <= qmaxl x r).
  { destruct (qmaxl_in x r) as [->|Q0]; apply Sh; [left; reflexivity|right; exact Q0]. }
  apply Qmult_lt_0_compat; [|reflexivity]. apply qdiv_pos; [reflexivity|]. lra.
Qed.

Lemma min_run_spec b lo : (forall x, In x (bd_peak b) -> 0 <= x) -> min_run_hr b = Ok lo ->
  exists x, In x (bd_peak b) /\ lo * x == 1001 # 1000.
Proof.
  intros Sh H. unfold min_run_hr in H. destruct (bd_peak b) as [|y r] eqn:E; [discriminate|].
  apply bind_ok in H. destruct H as (z & Y1 & Y). apply qdiv_inv in Y1. destruct Y1 as [Z ->]. apply ok_inj in Y. subst lo.
  exists (qmaxl y r). split.
  - destruct (qmaxl_in y r) as [->|Q0]; [left; reflexivity|right; exact Q0].
  - field. exact Z.
Qed.

(** Some hour takes [x] of the day. *)
Lemma min_run_below b x run : (forall x, In x (bd_peak b) -> 0 <= x) -> In x (bd_peak b) -> 0 < run -> 1001 # 1000 < run * x ->
  exists lo, min_run_hr b = Ok lo /\ lo < run.
Proof.
  intros Sh I R H. unfold min_run_hr. destruct (bd_peak b) as [|y r] eqn:E; [destruct I|].
  assert (X0 : 0 < x). { destruct (Qlt_le_dec 0 x) as [P|P]; [exact P|]. exfalso. assert (x == 0) by (specialize (Sh x I); lra).
    rewrite H0 in H. lra. }
  assert (M : x <= qmaxl y r) by (destruct (qmaxl_ge y r) as [G1 G2]; destruct I as [<-|I]; [exact G1|exact (G2 _ I)]).
  rewrite qdiv_ok by lra. cbn [bind]. eexists. split; [reflexivity|].
  setoid_replace (1 / qmaxl y r * (1001 # 1000)) with ((1001 # 1000) / qmaxl y r) by (field; lra).
  apply qdiv_lt_iff; [lra|]. apply Qlt_le_trans with (run * x); [exact H|]. rewrite !(Qmult_comm run). apply Qmult_le_compat_r; lra.
Qed.

(** What the curve needs of a class of systems: the heat of its capacity, and its running volume. *)
Definition pooled_class (K : klass) (s : dhw) (b : building) (heat : Q) : Prop :=
  (forall h, 0 < h -> exists c, k_capacity K (dh_set_run s h) b = Ok c /\ c * 1000 * dh_defrost s * h == heat) /\
  (forall h c, 0 < h -> k_running K (dh_set_run s h) b c = Ok (running_at b h)).

Lemma pooled_points K s b heat f h c st : pooled_class K s b heat -> 0 < h -> curve_point K (dh_set_run s h) b f = Ok (Some (c, st)) ->
  c * 1000 * dh_defrost s * h == heat /\ st = running_at b h / f /\ ~ f == 0 /\ ~ running_at b h == 0.
Proof.
  intros [PC PR] h0 CP. apply curve_point_inv in CP. destruct CP as (rv & C1 & C2 & C3 & C4).
  destruct (PC _ h0) as (c' & C' & Hc). rewrite C1 in C'. apply ok_inj in C'. subst c'.
  rewrite (PR h c h0) in C2. apply ok_inj in C2. subst rv. apply qdiv_inv in C4. destruct C4 as [Z ->]. auto.
Qed.

Lemma pooled_curve K lib s b cmap slope step heat inlet f lo : 0 < step -> daily_shape b -> pooled_class K s b heat ->
  0 < dh_run s -> dh_run s <= 24 -> design_inlet b = Ok inlet -> strat_factor s cmap (slope_or s slope) inlet = Ok f -> 0 < f ->
  min_run_hr b = Ok lo -> lo < dh_run s ->
  exists cv h c, sizing_curve K lib s b cmap slope step = (s, b, Ok cv) /\
    let n := Z.to_nat (cv_rec cv) in
    (0 <= cv_rec cv)%Z /\ (n < length (cv_hours cv))%nat /\ h == dh_run s /\
    nth_error (cv_hours cv) n = Some h /\
    nth_error (cv_capacity cv) n = Some c /\ c * 1000 * dh_defrost s * h == heat /\
    nth_error (cv_storage cv) n = Some (running_at b h / f).
Proof.
  intros Hst [L24 Sh Sq Hd] PK R0 R24 Hi Hf F0 Hlo LR.
  pose proof (min_run_pos _ _ Sh Hlo) as LO.
  assert (A : forall x y, exists l, arange x y (- step) = Ok l).
  { intros x y. unfold arange. destruct (Qeq_bool (- step) 0) eqn:Z; [apply Qeq_bool_iff in Z; lra|]. eexists. reflexivity. }
  destruct (A 24 (dh_run s)) as [a1 A1]. destruct (A (dh_run s) lo) as [a2 A2].
  destruct (arange_desc _ _ _ _ Hst A1) as (_ & I1 & _). destruct (arange_desc _ _ _ _ Hst A2) as (_ & I2 & H2 & _).
  assert (IN : forall h, In h (a1 ++ a2) -> lo < h <= 24).
  { intros h I. apply in_app_or in I. destruct I as [I|I]; [destruct (I1 _ I)|destruct (I2 _ I)]; lra. }
  destruct (min_run_spec _ _ Sh Hlo) as (x & Ix & Hx).
  assert (X0 : 0 < x). { destruct (Qlt_le_dec 0 x) as [P|P]; [exact P|]. exfalso. assert (x == 0) by (specialize (Sh x Ix); lra).
    rewrite H in Hx. lra. }
  assert (CP : forall h, lo < h <= 24 -> exists c, c * 1000 * dh_defrost s * h == heat /\
    curve_point K (dh_set_run s h) b f = Ok (Some (c, running_at b h / f))).
  { intros h [Lh Uh]. assert (h0 : 0 < h) by lra. destruct PK as [PC PR]. destruct (PC _ h0) as (c & C & Hc). exists c. split; [exact Hc|].
    unfold curve_point. rewrite C. cbn [bind]. rewrite (PR h c h0). cbn [bind].
    assert (RP : 0 < running_at b h).
    { apply running_at_pos with x; auto. apply Qlt_trans with (lo * x); [rewrite Hx; reflexivity|]. apply Qmult_lt_compat_r; assumption. }
    destruct (Qeq_bool (running_at b h) 0) eqn:Z; [apply Qeq_bool_iff in Z; lra|]. unfold storage_volume. rewrite qdiv_ok by lra. reflexivity. }
  destruct (loop_total K b f (a1 ++ a2) s) as (s1 & pts & L & N).
  { intros h I. destruct (CP h) as (c & _ & C); [apply IN; exact I|]. eexists. exact C. }
  destruct (sizing_curve K lib s b cmap slope step) as [[s' b'] o] eqn:E.
  assert (AN : bd_is_annual b = false) by (apply daily_not_annual; exact L24).
  destruct (C40_curve_restores K lib s b cmap slope step s' b' o) as [-> ->]; [intro X; congruence|exact E|].
  unfold sizing_curve in E. rewrite AN in E. unfold curve_body in E. rewrite Hi in E. cbn [bind] in E. rewrite Hf in E. cbn [bind] in E.
  rewrite Hlo in E. cbn [bind] in E. rewrite A1 in E. cbn [bind] in E. rewrite A2 in E. cbn [bind] in E. rewrite L in E. cbn [bind restore_annual] in E.
  assert (O : o = Ok (mkCurve (map (fun p => fst (fst p)) pts) (map (fun p => snd (fst p)) pts) (map snd pts)
     (Z.min (Z.of_nat (length a1)) (Z.max 0 (Z.of_nat (length pts) - 1))))) by congruence.
  rewrite O. clear E O o.
  destruct (curve_loop_points _ _ _ _ _ _ _ L) as (P1 & P2 & P3).
  assert (PL : length pts = length (a1 ++ a2)).
  { apply Nat.le_antisymm; [exact P2|]. apply N; [lia|]. rewrite firstn_all. intros h I. destruct (CP h) as (c & _ & C); [apply IN; exact I|]. eexists. exact C. }
  rewrite PL, firstn_all in P1. destruct (H2 LR) as [r Hr]. clear H2. set (h := dh_run s + qz 0 * - step) in *.
  assert (HH : h == dh_run s) by (unfold h; change (qz 0) with 0; ring).
  assert (PN : (length a1 < length pts)%nat) by (rewrite PL, app_length, Hr; cbn [length]; lia).
  assert (RI : Z.min (Z.of_nat (length a1)) (Z.max 0 (Z.of_nat (length pts) - 1)) = Z.of_nat (length a1)) by lia.
  rewrite RI. destruct (nth_error pts (length a1)) as [[[h' c] v]|] eqn:EN; [|apply nth_error_None in EN; lia].
  assert (EH : nth_error (map (fun p => fst (fst p)) pts) (length a1) = Some h').
  { rewrite nth_error_map, EN. reflexivity. }
  assert (h' = h).
  { rewrite P1, nth_error_app2, Nat.sub_diag, Hr in EH by lia. cbn in EH. congruence. }
  subst h'. pose proof (P3 _ _ _ (nth_error_In _ _ EN)) as CE.
  assert (H0 : 0 < h) by lra.
  destruct (pooled_points _ _ _ _ _ _ _ _ PK H0 CE) as (Hc & Hv & _).
  exists (mkCurve (map (fun p => fst (fst p)) pts) (map (fun p => snd (fst p)) pts) (map snd pts) (Z.of_nat (length a1))), h, c.
  split; [reflexivity|]. cbn [cv_hours cv_capacity cv_storage cv_rec]. rewrite Nat2Z.id.
  repeat split; auto; try lia.
  - rewrite map_length. exact PN.
  - rewrite nth_error_map, EN. reflexivity.
  - rewrite nth_error_map, EN, <- Hv. reflexivity.
Qed.

(** The trade-off along it. *)
Lemma pooled_trade_off K lib s b cmap slope step heat s' b' cv : 0 < step -> daily_shape b -> pooled_class K s b heat ->
  0 < heat -> 0 < dh_defrost s -> 0 < dh_run s -> dh_run s <= 24 -> sizing_curve K lib s b cmap slope step = (s', b', Ok cv) ->
  (forall inlet f, design_inlet b = Ok inlet -> strat_factor s cmap (slope_or s slope) inlet = Ok f -> 0 <= f) ->
  strictly_increasing (cv_capacity cv) /\ non_increasing (cv_storage cv).
Proof.
  intros Hst [L24 Sh Sq Hd] PK HP DP R0 R24 H HF.
  destruct (C41_well_formed _ _ _ _ _ _ _ _ _ _ Hst H) as (_ & _ & SD & _).
  destruct (curve_inv _ _ _ _ _ _ _ _ _ _ H) as (bb & inl & f & lo & a1 & a2 & s2 & pts & Hb' & Hi' & Hf' & Hlo & A1 & A2 & L & E).
  rewrite (daily_not_annual _ L24) in Hb'. apply ok_inj in Hb'. subst bb. pose proof (HF _ _ Hi' Hf') as F0.
  subst cv. cbn [cv_hours cv_capacity cv_storage] in *.
  destruct (curve_loop_points _ _ _ _ _ _ _ L) as (P1 & P2 & P3).
  destruct (arange_desc _ _ _ _ Hst A1) as (_ & I1 & _).
  destruct (arange_desc _ _ _ _ Hst A2) as (_ & I2 & _).
  pose proof (min_run_pos _ _ Sh Hlo) as LO.
  assert (HH : forall h c st, In (h, c, st) pts -> 0 < h /\ h <= 24).
  { intros h c st X. assert (Y : In h (map (fun p => fst (fst p)) pts)) by (apply in_map_iff; exists (h, c, st); auto).
    rewrite P1 in Y. assert (Z : In h (a1 ++ a2)).
    { rewrite <- (firstn_skipn (length pts) (a1 ++ a2)). apply in_or_app. left. exact Y. }
    apply in_app_or in Z. destruct Z as [Z|Z]; [destruct (I1 _ Z)|destruct (I2 _ Z)]; split; lra. }
  split.
  - apply (sd_to_si (fun p => fst (fst p))); [|exact SD].
    intros [[h1 c1] v1] [[h2 c2] v2] X1 X2 Lt. cbn [fst snd] in *.
    destruct (HH _ _ _ X1). destruct (HH _ _ _ X2).
    destruct (pooled_points _ _ _ _ _ _ _ _ PK H0 (P3 _ _ _ X1)) as (E1 & _).
    destruct (pooled_points _ _ _ _ _ _ _ _ PK H2 (P3 _ _ _ X2)) as (E2 & _).
    destruct (Qlt_le_dec c1 c2) as [|C]; [assumption|]. exfalso.
    assert (C2 : 0 < c2).
    { destruct (Qlt_le_dec 0 c2) as [|Y]; [assumption|]. exfalso.
      assert (c2 * (1000 * dh_defrost s * h2) <= 0 * (1000 * dh_defrost s * h2)).
      { apply Qmult_le_compat_r; [exact Y|]. apply Qmult_le_0_compat; [apply Qmult_le_0_compat; lra|lra]. }
      assert (c2 * (1000 * dh_defrost s * h2) == heat) by (rewrite <- E2; ring). lra. }
    assert (A : c2 * (1000 * dh_defrost s * h1) <= c1 * (1000 * dh_defrost s * h1)).
    { apply Qmult_le_compat_r; [exact C|]. apply Qmult_le_0_compat; [apply Qmult_le_0_compat; lra|lra]. }
    assert (B : c2 * 1000 * dh_defrost s * h2 < c2 * 1000 * dh_defrost s * h1).
    { rewrite !(Qmult_comm (c2 * 1000 * dh_defrost s)). apply Qmult_lt_compat_r; [|exact Lt].
      apply Qmult_lt_0_compat; [apply Qmult_lt_0_compat; [exact C2|reflexivity]|exact DP]. }
    lra.
  - apply (sd_to_ni (fun p => fst (fst p))); [|exact SD].
    intros [[h1 c1] v1] [[h2 c2] v2] X1 X2 Lt. cbn [fst snd] in *.
    destruct (HH _ _ _ X1). destruct (HH _ _ _ X2).
    destruct (pooled_points _ _ _ _ _ _ _ _ PK H0 (P3 _ _ _ X1)) as (_ & -> & _).
    destruct (pooled_points _ _ _ _ _ _ _ _ PK H2 (P3 _ _ _ X2)) as (_ & -> & _).
    unfold Qdiv. apply Qmult_le_compat_r; [|apply Qinv_le_0_compat; exact F0]. apply running_at_mono; auto. lra.
Qed.
