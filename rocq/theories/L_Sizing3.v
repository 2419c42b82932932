(** Lemmas for C35-C40: inversion of size, schedules, the load-shift running volume. *)
From Verif Require Import Prelude M_StratifiedTank M_Building M_Heater M_Sizing S_Sizing L_Sizing L_Heater L_Building.
Open Scope Q_scope.

(** ** Inversion *)
Lemma size_ok_inv K lib s b sched m slope fract s' b' w :
  dhw_size K lib s b sched m slope fract = (s', b', Ok w) ->
  exists b1 cap stor,
    (if bd_is_annual b then bd_set_daily lib b else Ok b) = Ok b1 /\
    size_values K (cap_run s sched m) b1 sched m slope fract = Ok (cap, stor) /\
    s' = mkDhw (dh_supply s) (dh_storage s) (dh_run s) (dh_defrost s) (Some cap) (Some stor) (Some slope).
Proof.
  unfold dhw_size. destruct (if bd_is_annual b then bd_set_daily lib b else Ok b) as [b1|e] eqn:E1; [|discriminate].
  unfold size_try.
  destruct (size_values K (cap_run s sched m) b1 sched m slope fract) as [[cap stor]|e] eqn:E2; [|discriminate].
  intro H. exists b1, cap, stor. split; [reflexivity|]. split; [exact E2|].
  assert (R : dh_set_run (dh_set_results (cap_run s sched m) cap stor slope) (dh_run s)
              = mkDhw (dh_supply s) (dh_storage s) (dh_run s) (dh_defrost s) (Some cap) (Some stor) (Some slope)).
  { unfold cap_run. destruct sched as [sc|]; [destruct (ls_active (Some sc) m)|]; reflexivity. }
  rewrite R in H. clear R.
  destruct (match map_of m with [] => Ok [] | c :: l => _ end); [|discriminate].
  destruct (bd_is_annual b); [destruct (bd_set_annual lib b1); [|discriminate]|];
    congruence.
Qed.

Lemma cap_run_none s m : cap_run s None m = s.
Proof. reflexivity. Qed.

Lemma cap_run_fields s sched m :
  dh_supply (cap_run s sched m) = dh_supply s /\ dh_storage (cap_run s sched m) = dh_storage s /\
  dh_defrost (cap_run s sched m) = dh_defrost s.
Proof. unfold cap_run. destruct sched; [destruct (ls_active _ _)|]; repeat split; reflexivity. Qed.

Lemma size_values_inv K s b sched m slope fract cap stor :
  size_values K s b sched m slope fract = Ok (cap, stor) ->
  exists inlet c0 rv f st,
    design_inlet b = Ok inlet /\ k_capacity K s b = Ok c0 /\ k_running K s b c0 = Ok rv /\
    strat_factor s m slope inlet = Ok f /\ storage_volume rv f = Ok st /\
    ((ls_active sched m = false /\ cap = c0 /\ stor = st) \/
     (exists sc d lcap g lrv lst, sched = Some sc /\ m = Some d /\ ls_active sched m = true /\
        k_capacity_ls K s sc d b slope fract = Ok lcap /\
        k_gen_ls K s sc d b slope fract = Ok g /\
        k_running_ls K s sc b g fract = Ok lrv /\
        storage_volume_ls s lrv d slope inlet = Ok lst /\
        cap = qmax c0 lcap /\ stor = qmax st lst)).
Proof.
  unfold size_values. intro H.
  apply bind_ok in H. destruct H as (inlet & H1 & H).
  apply bind_ok in H. destruct H as (c0 & H2 & H).
  apply bind_ok in H. destruct H as (rv & H3 & H).
  apply bind_ok in H. destruct H as (f & H4 & H).
  apply bind_ok in H. destruct H as (st & H5 & H).
  exists inlet, c0, rv, f, st. do 5 (split; [assumption|]).
  destruct sched as [sc|]; [|left; split; [reflexivity|]; apply ok_inj in H; inversion H; auto].
  destruct m as [d|].
  - destruct (ls_active (Some sc) (Some d)) eqn:E.
    + right.
      apply bind_ok in H. destruct H as (lcap & K1 & H).
      apply bind_ok in H. destruct H as (g & K2 & H).
      apply bind_ok in H. destruct H as (lrv & K3 & H).
      apply bind_ok in H. destruct H as (lst & K4 & H).
      apply ok_inj in H. inversion H; subst. exists sc, d, lcap, g, lrv, lst. repeat (split; [first [assumption|reflexivity]|]). reflexivity.
    + left. apply ok_inj in H. inversion H; auto.
  - left. apply ok_inj in H. inversion H; subst. split; [|auto]. unfold ls_active. destruct sc; reflexivity.
Qed.

Lemma capacity_inv s b inlet c : design_inlet b = Ok inlet -> base_capacity s b = Ok c ->
  ~ dh_run s == 0 /\ ~ dh_defrost s == 0 /\
  c == bd_daily b / dh_run s * rho_cp * (dh_supply s - inlet) / dh_defrost s / 1000.
Proof.
  intros E H. unfold base_capacity in H. rewrite E in H. cbn [bind] in H.
  apply bind_ok in H. destruct H as (g & H1 & H). apply qdiv_inv in H1. destruct H1 as [A ->].
  apply bind_ok in H. destruct H as (x & H1 & H). apply qdiv_inv in H1. destruct H1 as [B ->].
  apply ok_inj in H. subst c. repeat split; auto; reflexivity.
Qed.

Lemma set_daily_fields lib b b1 :
  (if bd_is_annual b then bd_set_daily lib b else Ok b) = Ok b1 ->
  bd_climate b1 = bd_climate b /\ bd_daily b1 = bd_daily b.
Proof.
  destruct (bd_is_annual b).
  - unfold bd_set_daily. destruct (negb _); [discriminate|]. intro H.
    apply bind_ok in H. destruct H as (f & _ & H). destruct (sf_stream_avg f); [|discriminate].
    apply ok_inj in H. subst b1. split; reflexivity.
  - intro H. apply ok_inj in H. subst b1. split; reflexivity.
Qed.

Lemma design_inlet_daily lib b b1 :
  (if bd_is_annual b then bd_set_daily lib b else Ok b) = Ok b1 -> design_inlet b1 = design_inlet b.
Proof.
  intro H. destruct (set_daily_fields _ _ _ H) as [A _]. unfold design_inlet, bd_design_inlet. rewrite A. reflexivity.
Qed.

(** ** Levels of larger stores *)
Lemma level_mono V1 V2 g d s n : V1 <= V2 -> level V1 g d s n <= level V2 g d s n.
Proof.
  intro H. induction n as [|n IH]; cbn [level]; [exact H|].
  set (x := level V1 g d s n + g (s + n)%nat - d (s + n)%nat).
  set (y := level V2 g d s n + g (s + n)%nat - d (s + n)%nat).
  assert (x <= y) by (unfold x, y; lra).
  destruct (qmin_spec V1 x) as [[A E]|[A E]]; destruct (qmin_spec V2 y) as [[B F]|[B F]]; rewrite E, F; lra.
Qed.

(** ** The first shed block *)
Lemma is_shed_iff sched h : is_shed sched h = true <-> nth_error sched h = Some "shed"%string.
Proof.
  unfold is_shed. destruct (nth_error sched h) as [k|]; [|split; discriminate].
  split; [intro H; apply String.eqb_eq in H; subst; reflexivity|intro H; injection H as ->; reflexivity].
Qed.

Lemma filter_seq_head P n : forall a h r, filter P (seq a n) = h :: r ->
  (a <= h < a + n)%nat /\ P h = true /\ (forall j, (a <= j < h)%nat -> P j = false) /\
  r = filter P (seq (S h) (a + n - S h)).
Proof.
  induction n as [|n IH]; intros a h r H; cbn [seq filter] in H; [discriminate|].
  destruct (P a) eqn:E.
  - injection H as -> <-. repeat split; try lia; auto.
    f_equal. f_equal. lia.
  - destruct (IH _ _ _ H) as (A & B & C & D). repeat split; try lia; auto.
    + intros j Hj. destruct (Nat.eq_dec j a) as [->|]; [exact E|apply C; lia].
    + rewrite D. f_equal. f_equal. lia.
Qed.

Lemma take_run_spec P n : forall h, exists k,
  take_run (Z.of_nat h) (map Z.of_nat (filter P (seq (S h) n))) = map Z.of_nat (seq (S h) k) /\
  (k <= n)%nat /\ (forall i, (i < k)%nat -> P (S h + i)%nat = true) /\ (k = n \/ P (S h + k)%nat = false).
Proof.
  induction n as [|n IH]; intro h.
  - exists 0%nat. cbn. repeat split; auto. intros i Hi; lia.
  - cbn [seq filter]. destruct (P (S h)) eqn:E.
    + destruct (IH (S h)) as (k & A & B & C & D). exists (S k).
      cbn [map take_run seq]. replace (Z.of_nat (S h) =? Z.of_nat h + 1)%Z with true by (symmetry; apply Z.eqb_eq; lia).
      rewrite A. repeat split; [lia| |].
      * intros [|i] Hi; [rewrite Nat.add_0_r; exact E|]. replace (S h + S i)%nat with (S (S h) + i)%nat by lia. apply C; lia.
      * replace (S h + S k)%nat with (S (S h) + k)%nat by lia. destruct D; [left; lia|right; exact H].
    + exists 0%nat. repeat split; [|lia|intros i Hi; lia|right; rewrite Nat.add_0_r; exact E].
      cbn [seq map]. destruct (filter P (seq (S (S h)) n)) as [|x r] eqn:F; [reflexivity|].
      apply filter_seq_head in F. destruct F as (A & _). cbn [map take_run].
      replace (Z.of_nat x =? Z.of_nat h + 1)%Z with false by (symmetry; apply Z.eqb_neq; lia). reflexivity.
Qed.

Lemma count_load_up_spec sched a :
  exists u, count_load_up sched a = Z.of_nat u /\ load_up_before sched a u.
Proof.
  induction a as [|a IH]; cbn [count_load_up].
  - exists 0%nat. repeat split; auto. intros i Hi; lia.
  - destruct (nth_error sched a) as [k|] eqn:E.
    + destruct (String.eqb k "loadUp") eqn:F.
      * apply String.eqb_eq in F. subst k. destruct IH as (u & A & B & C & D).
        exists (S u). split; [lia|]. split; [lia|]. split.
        { intros i Hi. destruct (Nat.eq_dec i u) as [->|].
          - replace (S a - S u + u)%nat with a by lia. exact E.
          - replace (S a - S u + i)%nat with (a - u + i)%nat by lia. apply C; lia. }
        destruct D as [D|D]; [left; lia|right]. replace (S a - S u - 1)%nat with (a - u - 1)%nat by lia. exact D.
      * exists 0%nat. repeat split; try lia. { intros i Hi; lia. }
        right. replace (S a - 0 - 1)%nat with a by lia. rewrite E. intro X; injection X as ->. discriminate.
    + exists 0%nat. repeat split; try lia. { intros i Hi; lia. }
      right. replace (S a - 0 - 1)%nat with a by lia. rewrite E. discriminate.
Qed.

Lemma load_up_before_unique sched a u v : load_up_before sched a u -> load_up_before sched a v -> u = v.
Proof.
  intros (A & B & C) (A' & B' & C').
  destruct (Nat.lt_trichotomy u v) as [L|[L|L]]; [|exact L|].
  - exfalso. destruct C as [C|C]; [lia|]. apply C. specialize (B' (v - u - 1)%nat ltac:(lia)).
    replace (a - v + (v - u - 1))%nat with (a - u - 1)%nat in B' by lia. exact B'.
  - exfalso. destruct C' as [C'|C']; [lia|]. apply C'. specialize (B (u - v - 1)%nat ltac:(lia)).
    replace (a - u + (u - v - 1))%nat with (a - v - 1)%nat in B by lia. exact B.
Qed.

Lemma first_shed_run_unique sched a k a' k' : is_first_shed_run sched a k -> is_first_shed_run sched a' k' -> a = a' /\ k = k'.
Proof.
  intros (K0 & A & B & C & D) (K0' & A' & B' & C' & D').
  assert (E : a = a').
  { destruct (Nat.lt_trichotomy a a') as [L|[L|L]]; [|exact L|].
    - exfalso. apply (C' a L). specialize (B 0%nat K0). rewrite Nat.add_0_r in B. exact B.
    - exfalso. apply (C a' L). specialize (B' 0%nat K0'). rewrite Nat.add_0_r in B'. exact B'. }
  subst a'. split; [reflexivity|].
  destruct (Nat.lt_trichotomy k k') as [L|[L|L]]; [|exact L|].
  - exfalso. destruct D as [D|D]; [lia|]. apply D. apply B'. exact L.
  - exfalso. destruct D' as [D'|D']; [lia|]. apply D'. apply B. exact L.
Qed.

Lemma keys_filter sched n : forall a keys,
  mapM (fun h => do k <- py_nth sched h; Ok (h, k)) (map Z.of_nat (seq a n)) = Ok keys ->
  map fst (filter (fun hk => String.eqb (snd hk) "shed") keys) = map Z.of_nat (filter (is_shed sched) (seq a n)) /\
  (forall i, (i < n)%nat -> nth_error sched (a + i) <> None).
Proof.
  induction n as [|n IH]; intros a keys H; cbn [seq map mapM] in H.
  - apply ok_inj in H. subst keys. split; [reflexivity|intros i Hi; lia].
  - apply bind_ok in H. destruct H as (hk & H1 & H).
    apply bind_ok in H1. destruct H1 as (k & H1 & H2). apply ok_inj in H2. subst hk.
    apply bind_ok in H. destruct H as (r & H3 & H). apply ok_inj in H. subst keys.
    apply py_nth_nonneg_inv in H1; [|lia]. rewrite Nat2Z.id in H1.
    destruct (IH _ _ H3) as [A B]. split.
    + cbn [filter seq map snd fst]. unfold is_shed at 1. rewrite H1.
      destruct (String.eqb k "shed"); cbn [map fst]; rewrite A; reflexivity.
    + intros [|i] Hi; [rewrite Nat.add_0_r, H1; discriminate|].
      replace (a + S i)%nat with (S a + i)%nat by lia. apply B; lia.
Qed.

Lemma hours24_seq : hours24 = map Z.of_nat (seq 0 24).
Proof. reflexivity. Qed.

Lemma first_shed_block_spec sched block lu :
  first_shed_block sched = Ok (block, lu) ->
  (24 <= length sched)%nat /\
  ((block = [] /\ lu = 0%Z /\ forall h, (h < 24)%nat -> nth_error sched h <> Some "shed"%string) \/
   (exists a k u, block = map Z.of_nat (seq a k) /\ lu = Z.of_nat u /\
      is_first_shed_run sched a k /\ load_up_before sched a u)).
Proof.
  unfold first_shed_block. rewrite hours24_seq. intro H.
  apply bind_ok in H. destruct H as (keys & H1 & H).
  apply keys_filter in H1. destruct H1 as [E L]. rewrite E in H.
  split.
  { specialize (L 23%nat ltac:(lia)). apply nth_error_Some in L. cbn in L. lia. }
  destruct (filter (is_shed sched) (seq 0 24)) as [|h0 r] eqn:F; cbn [map] in H; apply ok_inj in H.
  - inversion H; subst. left. repeat split. intros h Hh C. apply is_shed_iff in C.
    assert (X : In h (filter (is_shed sched) (seq 0 24))) by (apply filter_In; split; [apply in_seq; lia|exact C]).
    rewrite F in X. destruct X.
  - apply filter_seq_head in F. destruct F as (A & B & C & D). right.
    destruct (take_run_spec (is_shed sched) (0 + 24 - S h0) h0) as (k & T1 & T2 & T3 & T4).
    destruct (count_load_up_spec sched h0) as (u & U1 & U2).
    rewrite D in H. rewrite T1, Nat2Z.id, U1 in H. inversion H; subst.
    exists h0, (S k), u. split; [reflexivity|]. split; [reflexivity|]. split; [|exact U2].
    split; [lia|]. split; [lia|]. split.
    { intros [|i] Hi; [rewrite Nat.add_0_r; apply is_shed_iff; exact B|].
      apply is_shed_iff. replace (h0 + S i)%nat with (S h0 + i)%nat by lia. apply T3. lia. }
    split.
    { intros h Hh X. apply is_shed_iff in X. rewrite C in X by lia. discriminate. }
    destruct T4 as [T4|T4]; [left; lia|right]. intro X. apply is_shed_iff in X.
    replace (h0 + S k)%nat with (S h0 + k)%nat in X by lia. congruence.
Qed.

(** ** Sums over hours *)
Lemma sum_at_demand daily shape : forall k a x,
  sum_at (map (fun f => f * daily) shape) (map Z.of_nat (seq a k)) = Ok x ->
  x == demand_of_hours daily shape a k /\ ((0 < k)%nat -> (a + k <= length shape)%nat).
Proof.
  unfold sum_at, demand_of_hours. induction k as [|k IH]; intros a x H; cbn [seq map mapM] in H.
  - cbn in H. apply ok_inj in H. subst x. split; [reflexivity|lia].
  - apply bind_ok in H. destruct H as (xs & H1 & H). apply ok_inj in H. subst x.
    apply bind_ok in H1. destruct H1 as (y & H1 & H2).
    apply bind_ok in H2. destruct H2 as (r & H2 & H3). apply ok_inj in H3. subst xs.
    destruct (IH (S a) (qsum r)) as [A B].
    { rewrite H2. reflexivity. }
    apply py_nth_nonneg_inv in H1; [|lia]. rewrite Nat2Z.id in H1.
    assert (LA : (a < length shape)%nat).
    { assert (H1' : nth_error (map (fun f => f * daily) shape) a <> None) by congruence. apply nth_error_Some in H1'. rename H1 into H1s. rename H1' into H1. rewrite map_length in H1. exact H1. }
    split.
    + cbn [seq map qsum]. rewrite <- seq_shift, map_map. rewrite A.
      rewrite nth_error_map in H1.
      rewrite (nth_error_nth' shape 0 LA) in H1. injection H1 as <-. rewrite Nat.add_0_r.
      assert (E : qsum (map (fun i => daily * nth (S a + i) shape 0) (seq 0 k)) ==
                  qsum (map (fun x => daily * nth (a + S x) shape 0) (seq 0 k))).
      { apply qsum_map_ext. intros i _. replace (S a + i)%nat with (a + S i)%nat by lia. reflexivity. }
      rewrite E. ring.
    + intros _. destruct k; [lia|]. specialize (B ltac:(lia)). lia.
Qed.

(** ** Load-shift running volume *)
Lemma seq_off n a : seq a n = map (fun i => (a + i)%nat) (seq 0 n).
Proof.
  revert a. induction n as [|n IH]; intro a; [reflexivity|]. cbn [seq map]. rewrite Nat.add_0_r. f_equal.
  rewrite IH. rewrite <- seq_shift, map_map. apply map_ext. intro i. lia.
Qed.

Lemma prelim_inv sched b fract vs vc :
  prelim_vols sched b fract = Ok (vs, vc) ->
  exists a k u, first_shed_block sched = Ok (map Z.of_nat (seq a k), Z.of_nat u) /\
    is_first_shed_run sched a k /\ load_up_before sched a u /\
    (a + k <= length (bd_avg b))%nat /\
    vs == fract * demand_of_hours (bd_daily b) (bd_avg b) a k /\
    vc == demand_of_hours (bd_daily b) (bd_avg b) (a - u) u.
Proof.
  unfold prelim_vols. intro H.
  apply bind_ok in H. destruct H as ([block lu] & H1 & H).
  apply bind_ok in H. destruct H as (v & H2 & H).
  apply bind_ok in H. destruct H as (h0 & H3 & H).
  apply bind_ok in H. destruct H as (c & H4 & H).
  apply ok_inj in H. inversion H; subst. clear H.
  destruct (first_shed_block_spec _ _ _ H1) as (_ & [(E & _)|(a & k & u & E1 & E2 & A & B)]).
  { subst block. discriminate H3. }
  subst block lu. exists a, k, u.
  split; [exact H1|]. split; [exact A|]. split; [exact B|].
  apply sum_at_demand in H2. destruct H2 as [D1 D2].
  assert (K0 : (0 < k)%nat) by (destruct A; assumption).
  split; [apply D2; exact K0|]. split; [rewrite D1; ring|].
  destruct k as [|k]; [lia|]. cbn [seq map] in H3. unfold py_nth in H3. cbn in H3.
  destruct (Z.leb_spec (Z.pos (Pos.of_succ_nat (length (map Z.of_nat (seq (S a) k))))) 0); [lia|].
  apply ok_inj in H3. subst h0.
  destruct B as (B1 & _).
  assert (R : zrange (Z.of_nat a - Z.of_nat u) (Z.of_nat a) = map Z.of_nat (seq (a - u) u)).
  { unfold zrange. replace (Z.to_nat (Z.of_nat a - (Z.of_nat a - Z.of_nat u))) with u by lia.
    rewrite (seq_off u (a - u)), map_map. apply map_ext. intro i. lia. }
  rewrite R in H4. apply sum_at_demand in H4. apply H4.
Qed.

Lemma vsub_spec : forall a b l, vsub a b = Ok l ->
  length a = length b /\ length l = length b /\ forall i, nth i l 0 == nth i a 0 - nth i b 0.
Proof.
  induction a as [|x a IH]; destruct b as [|y b]; intros l H; cbn [vsub] in H; try discriminate.
  - apply ok_inj in H. subst. repeat split. intros [|i]; cbn; lra.
  - apply bind_ok in H. destruct H as (r & H1 & H). apply ok_inj in H. subst l.
    destruct (IH _ _ H1) as (A & B & C). cbn [length]. repeat split; try lia.
    intros [|i]; cbn [nth]; [lra|apply C].
Qed.

Lemma prof_spec sched gen n : forall a prof,
  mapM (fun h => do k <- py_nth sched h; Ok (if String.eqb k "shed" then 0 else gen)) (map Z.of_nat (seq a n)) = Ok prof ->
  length prof = n /\ forall i, (i < n)%nat -> nth i prof 0 = if is_shed sched (a + i) then 0 else gen.
Proof.
  induction n as [|n IH]; intros a prof H; cbn [seq map mapM] in H.
  - apply ok_inj in H. subst. split; [reflexivity|intros; lia].
  - apply bind_ok in H. destruct H as (y & H1 & H).
    apply bind_ok in H1. destruct H1 as (k & H1 & H2). apply ok_inj in H2. subst y.
    apply bind_ok in H. destruct H as (r & H3 & H). apply ok_inj in H. subst prof.
    apply py_nth_nonneg_inv in H1; [|lia]. rewrite Nat2Z.id in H1.
    destruct (IH _ _ H3) as [A B]. split; [cbn; lia|].
    intros [|i] Hi; cbn [nth].
    + rewrite Nat.add_0_r. unfold is_shed. rewrite H1. reflexivity.
    + rewrite B by lia. replace (S a + i)%nat with (a + S i)%nat by lia. reflexivity.
Qed.

Lemma level_window_full V g dem s n : exists j, (j <= n)%nat /\ level V g dem s j == V /\
  level V g dem s n == V + wsum (fun t => g t - dem t) (s + j) (n - j).
Proof.
  induction n as [|n IH].
  - exists 0%nat. split; [lia|]. split; [reflexivity|]. cbn. lra.
  - cbn [level]. destruct (qmin_spec V (level V g dem s n + g (s + n)%nat - dem (s + n)%nat)) as [[A E]|[A E]].
    + exists (S n). split; [lia|]. split; [cbn [level]; rewrite E; reflexivity|].
      rewrite E, Nat.sub_diag. cbn [wsum]. lra.
    + destruct IH as (j & Hj & F & IH). exists j. split; [lia|]. split; [exact F|]. rewrite E.
      replace (S n - j)%nat with (S (n - j)) by lia. cbn [wsum].
      replace (s + j + (n - j))%nat with (s + n)%nat by lia. lra.
Qed.

Lemma running_ls_inv sched b gen fract R :
  base_running_ls sched b gen fract = Ok R ->
  exists a k u deficit, first_shed_block sched = Ok (map Z.of_nat (seq a k), Z.of_nat u) /\
    is_first_shed_run sched a k /\ load_up_before sched a u /\ length (bd_avg b) = 24%nat /\
    0 <= deficit /\
    R == fract * (deficit + demand_of_hours (bd_daily b) (bd_avg b) a k) /\
    (forall n, (a + k + n <= 48)%nat ->
       - deficit <= wsum (fun t => shed_gen sched gen t - demand_at (bd_daily b) (bd_avg b) t) (a + k) n).
Proof.
  unfold base_running_ls. intro H.
  apply bind_ok in H. destruct H as ([block lu] & H1 & H).
  apply bind_ok in H. destruct H as ([vs vc] & H2 & H).
  apply bind_ok in H. destruct H as (prof & H3 & H).
  apply bind_ok in H. destruct H as (diff & H4 & H).
  apply bind_ok in H. destruct H as (last & H5 & H).
  apply ok_inj in H. cbn [fst] in *.
  destruct (prelim_inv _ _ _ _ _ H2) as (a & k & u & P1 & P2 & P3 & P4 & P5 & P6).
  rewrite P1 in H1. apply ok_inj in H1. inversion H1; subst block lu. clear H1.
  rewrite hours24_seq in H3. apply prof_spec in H3. destruct H3 as [L1 L2].
  apply vsub_spec in H4. destruct H4 as (M1 & M2 & M3). rewrite map_length in *.
  assert (La : length (bd_avg b) = 24%nat) by lia.
  assert (Ld : length diff = 24%nat) by lia.
  pose proof P2 as (K0 & AK & _).
  assert (EL : last = Z.of_nat (a + k - 1)).
  { destruct k as [|k]; [lia|]. rewrite seq_S, map_app in H5. cbn [map] in H5.
    unfold py_nth in H5. cbn [Z.ltb] in H5. rewrite app_length, map_length, seq_length in H5. cbn [length] in H5.
    change (-1 <? 0)%Z with true in H5. cbv beta iota zeta in H5.
    replace ((-1 + Z.of_nat (k + 1) <? 0) || (Z.of_nat (k + 1) <=? -1 + Z.of_nat (k + 1)))%Z with false in H5.
    2:{ symmetry. apply orb_false_iff. split; [apply Z.ltb_ge; lia|apply Z.leb_gt; lia]. }
    replace (Z.to_nat (-1 + Z.of_nat (k + 1))) with k in H5 by lia.
    rewrite nth_error_app2 in H5 by (rewrite map_length, seq_length; lia).
    rewrite map_length, seq_length, Nat.sub_diag in H5. cbn in H5. apply ok_inj in H5. subst last. f_equal; lia. }
  subst last.
  replace (Z.to_nat (Z.of_nat (a + k - 1) + 1)) with (a + k)%nat in H by lia.
  set (def := match worst_deficit (cumsum (skipn (a + k) (diff ++ diff))) with Some m => m | None => 0 end) in *.
  assert (DF : forall t, day_fun diff t == shed_gen sched gen t - demand_at (bd_daily b) (bd_avg b) t).
  { intro t. unfold day_fun, shed_gen, demand_at. rewrite Ld, La.
    assert (T : (t mod 24 < 24)%nat) by (apply Nat.mod_upper_bound; lia).
    rewrite M3, L2 by exact T. rewrite Nat.add_0_l.
    rewrite (nth_indep _ 0 ((fun f => bd_daily b * f) 0)) by (rewrite map_length; lia).
    rewrite (map_nth (fun f => bd_daily b * f)). reflexivity. }
  exists a, k, u, def. split; [exact P1|]. split; [exact P2|]. split; [exact P3|]. split; [exact La|].
  pose proof (worst_deficit_spec (cumsum (skipn (a + k) (diff ++ diff)))) as W.
  split.
  { unfold def. destruct (worst_deficit _); [|lra]. destruct W as (x & y & z). lra. }
  split.
  { subst R. rewrite P5. ring. }
  intros n Hn.
  assert (E : wsum (fun t => shed_gen sched gen t - demand_at (bd_daily b) (bd_avg b) t) (a + k) n == wsum (day_fun diff) (a + k) n).
  { apply wsum_ext. intros i _. symmetry. apply DF. }
  rewrite E. destruct n as [|n].
  { cbn [wsum]. unfold def. destruct (worst_deficit _); [destruct W as (x & y & z); lra|lra]. }
  pose proof (tail_cumsum_in diff (a + k) (S n) ltac:(lia) ltac:(lia)) as T.
  destruct T as (x & T1 & T2).
  unfold def. destruct (worst_deficit _) as [q|].
  - destruct W as (_ & W & _). specialize (W _ T1). lra.
  - specialize (W _ T1). lra.
Qed.

Lemma wsum_demand_of_hours daily shape a k : (a + k <= length shape)%nat ->
  wsum (fun t => 0 - demand_at daily shape t) a k == - demand_of_hours daily shape a k.
Proof.
  unfold demand_of_hours. intro H. induction k as [|k IH]; [cbn; lra|].
  cbn [wsum]. rewrite IH by lia. rewrite seq_S, map_app, qsum_app. cbn [map qsum].
  unfold demand_at. rewrite Nat.mod_small by lia. rewrite Nat.add_0_l. lra.
Qed.

(** Full at the start of the first shed block, a store of at least the load-shift volume covers the
    demand until it is full again after the block. *)
Lemma shed_covered sched b gen fract R V :
  base_running_ls sched b gen fract = Ok R -> 0 <= fract -> 0 <= bd_daily b ->
  (forall x, In x (bd_avg b) -> 0 <= x) -> R <= V ->
  exists a k, is_first_shed_run sched a k /\
    (forall n, (n <= k)%nat ->
       0 <= level V (fun t => fract * shed_gen sched gen t) (fun t => fract * demand_at (bd_daily b) (bd_avg b) t) a n) /\
    (forall n, (k < n)%nat -> (a + n <= 48)%nat ->
       0 <= level V (fun t => fract * shed_gen sched gen t) (fun t => fract * demand_at (bd_daily b) (bd_avg b) t) a n
       \/ exists j, (k < j < n)%nat /\
            level V (fun t => fract * shed_gen sched gen t) (fun t => fract * demand_at (bd_daily b) (bd_avg b) t) a j == V).
Proof.
  intros H F0 D0 Sh HV.
  destruct (running_ls_inv _ _ _ _ _ H) as (a & k & u & def & _ & P2 & _ & La & Hd & ER & W).
  exists a, k. split; [exact P2|].
  set (G := fun t => fract * shed_gen sched gen t) in *.
  set (D := fun t => fract * demand_at (bd_daily b) (bd_avg b) t) in *.
  pose proof P2 as (K0 & AK & LB & _).
  assert (DN : forall t, 0 <= demand_at (bd_daily b) (bd_avg b) t).
  { intro t. unfold demand_at. apply Qmult_le_0_compat; [exact D0|]. apply Sh. apply nth_In.
    apply Nat.mod_upper_bound. lia. }
  assert (SH : forall j n, (j <= k)%nat -> (n <= k - j)%nat ->
             - (fract * demand_of_hours (bd_daily b) (bd_avg b) a k) <= wsum (fun t => G t - D t) (a + j) n).
  { intros j n Hj Hn.
    assert (SG : forall i, (i < k)%nat -> shed_gen sched gen (a + i) = 0).
    { intros i Hi. unfold shed_gen. rewrite Nat.mod_small by lia.
      replace (is_shed sched (a + i)) with true; [reflexivity|]. symmetry. apply is_shed_iff. apply LB. exact Hi. }
    assert (E : wsum (fun t => G t - D t) (a + j) n == wsum (fun t => - D t) (a + j) n).
    { apply wsum_ext. intros i Hi. unfold G. replace (a + j + i)%nat with (a + (j + i))%nat by lia. rewrite SG by lia. lra. }
    assert (T1 : wsum (fun t => - D t) a k == wsum (fun t => - D t) a j + wsum (fun t => - D t) (a + j) n + wsum (fun t => - D t) (a + j + n) (k - j - n)).
    { replace k with (j + (n + (k - j - n)))%nat at 1 by lia. rewrite !wsum_app. lra. }
    assert (NG : forall i L, wsum (fun t => - D t) i L <= 0).
    { intros i L. assert (X : wsum (fun t => - D t) i L <= wsum (fun _ => 0) i L).
      { apply wsum_le. intros q _. unfold D. assert (0 <= fract * demand_at (bd_daily b) (bd_avg b) (i + q)) by (apply Qmult_le_0_compat; auto). lra. }
      assert (Y : wsum (fun _ : nat => 0) i L == 0) by (clear; induction L; cbn [wsum]; lra). lra. }
    assert (T2 : wsum (fun t => - D t) a k == - (fract * demand_of_hours (bd_daily b) (bd_avg b) a k)).
    { assert (T3 : wsum (fun t => - D t) a k == fract * wsum (fun t => 0 - demand_at (bd_daily b) (bd_avg b) t) a k).
      { clear. induction k as [|k IH]; cbn [wsum]; [lra|]. rewrite IH. unfold D. ring. }
      rewrite T3, wsum_demand_of_hours by lia. ring. }
    pose proof (NG a j). pose proof (NG (a + j + n)%nat (k - j - n)%nat). lra. }
  assert (FD : 0 <= fract * def) by (apply Qmult_le_0_compat; assumption).
  assert (ER' : R == fract * def + fract * demand_of_hours (bd_daily b) (bd_avg b) a k) by (rewrite ER; ring).
  split.
  - intros n Hn. destruct (level_window_full V G D a n) as (j & Hj & _ & E). rewrite E.
    pose proof (SH j (n - j)%nat ltac:(lia) ltac:(lia)). lra.
  - intros n Hk Hn. destruct (level_window_full V G D a n) as (j & Hj & Full & E).
    destruct (Nat.le_gt_cases j k) as [C|C].
    + left. rewrite E.
      replace (n - j)%nat with ((k - j) + (n - k))%nat by lia. rewrite wsum_app.
      pose proof (SH j (k - j)%nat ltac:(lia) ltac:(lia)).
      replace (a + j + (k - j))%nat with (a + k)%nat by lia.
      assert (X : wsum (fun t => G t - D t) (a + k) (n - k) ==
                  fract * wsum (fun t => shed_gen sched gen t - demand_at (bd_daily b) (bd_avg b) t) (a + k) (n - k)).
      { generalize (n - k)%nat. clear. intro q. induction q as [|q IH]; cbn [wsum]; [lra|]. rewrite IH. unfold G, D. ring. }
      pose proof (W (n - k)%nat ltac:(lia)) as Y.
      assert (fract * - def <= fract * wsum (fun t => shed_gen sched gen t - demand_at (bd_daily b) (bd_avg b) t) (a + k) (n - k)).
      { rewrite !(Qmult_comm fract). apply Qmult_le_compat_r; assumption. }
      lra.
    + destruct (Nat.eq_dec j n) as [->|Ne].
      * left. rewrite Full. assert (0 <= fract * demand_of_hours (bd_daily b) (bd_avg b) a k).
        { pose proof (SH 0%nat 0%nat ltac:(lia) ltac:(lia)) as X. cbn [wsum] in X. lra. }
        lra.
      * right. exists j. split; [lia|exact Full].
Qed.

(** ** A 24-hour schedule always has a block *)
Lemma mapM_total {A B} (f : A -> res B) : forall l, (forall x, In x l -> exists y, f x = Ok y) -> exists r, mapM f l = Ok r.
Proof.
  induction l as [|a l IH]; intro H; [eexists; reflexivity|]. cbn [mapM].
  destruct (H a (or_introl eq_refl)) as (y & ->). destruct IH as (r & ->); [intros x X; apply H; right; exact X|].
  eexists; reflexivity.
Qed.

Lemma first_shed_block_total sched : (24 <= length sched)%nat -> exists r, first_shed_block sched = Ok r.
Proof.
  intro H. unfold first_shed_block. rewrite hours24_seq.
  destruct (mapM_total (fun h => do k <- py_nth sched h; Ok (h, k)) (map Z.of_nat (seq 0 24))) as (r & ->).
  - intros x X. apply in_map_iff in X. destruct X as (i & <- & Hi). apply in_seq in Hi.
    destruct (nth_error sched i) as [k|] eqn:E.
    + rewrite (py_nth_nonneg sched (Z.of_nat i) k); [eexists; reflexivity|lia|rewrite Nat2Z.id; exact E].
    + apply nth_error_None in E. lia.
  - cbn [bind]. destruct (map fst _); eexists; reflexivity.
Qed.

Lemma gen_ls_inv s sched d b slope fract g :
  base_gen_ls s sched d b slope fract = Ok g ->
  bd_daily b / dh_run s <= g /\
  forall nc sc lp np sp a k u,
    ctl d "normal" = Ok nc -> ctl d "shed" = Ok sc ->
    strat_pct s (ct_on_sensor nc) (ct_on_trigger nc) slope = Ok np ->
    strat_pct s (ct_on_sensor (ctl_load_up d nc)) (ct_on_trigger (ctl_load_up d nc)) slope = Ok lp ->
    strat_pct s (ct_on_sensor sc) (ct_on_trigger sc) slope = Ok sp -> sp < lp ->
    is_first_shed_run sched a k -> load_up_before sched a u ->
    demand_of_hours (bd_daily b) (bd_avg b) (a - u) u +
      fract * demand_of_hours (bd_daily b) (bd_avg b) a k * (lp - np) / (lp - sp) * (if Nat.eqb u 0 then 0 else 1)
      <= g * qz (Z.of_nat u).
Proof.
  unfold base_gen_ls. intro H.
  apply bind_ok in H. destruct H as (ng & H1 & H). apply qdiv_inv in H1. destruct H1 as [Z ->].
  apply bind_ok in H. destruct H as ([block lu] & H2 & H). cbn [snd] in H.
  destruct (lu =? 0)%Z eqn:L.
  - apply ok_inj in H. subst g. split; [lra|].
    intros nc sc lp np sp a k u _ _ _ _ _ _ A B.
    destruct (first_shed_block_spec _ _ _ H2) as (_ & [(_ & _ & N)|(a' & k' & u' & _ & E2 & A' & B')]).
    + exfalso. destruct A as (K0 & AK & LB & _). apply (N a ltac:(lia)). specialize (LB 0%nat K0). rewrite Nat.add_0_r in LB. exact LB.
    + destruct (first_shed_run_unique _ _ _ _ _ A A') as [-> ->]. pose proof (load_up_before_unique _ _ _ _ B B') as ->.
      apply Z.eqb_eq in L. assert (u' = 0)%nat by lia. subst u'. cbn [Nat.eqb]. change (qz (Z.of_nat 0)) with 0.
      unfold demand_of_hours at 1. cbn [seq map qsum]. lra.
  - apply Z.eqb_neq in L.
    apply bind_ok in H. destruct H as ([vs vc] & H3 & H).
    apply bind_ok in H. destruct H as (nc & H4 & H).
    apply bind_ok in H. destruct H as (sc & H5 & H).
    apply bind_ok in H. destruct H as (np & H6 & H).
    apply bind_ok in H. destruct H as (lp & H7 & H).
    apply bind_ok in H. destruct H as (sp & H8 & H).
    destruct (prelim_inv _ _ _ _ _ H3) as (a & k & u & P1 & P2 & P3 & _ & P5 & P6).
    rewrite P1 in H2. apply ok_inj in H2. inversion H2; subst block lu. clear H2.
    destruct (Qle_bool (lp - sp) 0) eqn:BD; qbool.
    + apply ok_inj in H. subst g. split; [lra|].
      intros nc' sc' lp' np' sp' a' k' u' X1 X2 X3 X4 X5 X6 A B.
      rewrite X1 in H4. apply ok_inj in H4. subst nc'. rewrite X2 in H5. apply ok_inj in H5. subst sc'.
      rewrite X4 in H7. apply ok_inj in H7. subst lp'. rewrite X5 in H8. apply ok_inj in H8. subst sp'. lra.
    + apply ok_inj in H.
      set (q := (vs * (lp - np) / (lp - sp) + vc) / qz (Z.of_nat u)) in *.
      split.
      { rewrite <- H. apply qmax_l. }
      intros nc' sc' lp' np' sp' a' k' u' X1 X2 X3 X4 X5 X6 A B.
      rewrite X1 in H4. apply ok_inj in H4. subst nc'. rewrite X2 in H5. apply ok_inj in H5. subst sc'.
      rewrite X3 in H6. apply ok_inj in H6. subst np'.
      rewrite X4 in H7. apply ok_inj in H7. subst lp'. rewrite X5 in H8. apply ok_inj in H8. subst sp'.
      destruct (first_shed_run_unique _ _ _ _ _ A P2) as [-> ->]. pose proof (load_up_before_unique _ _ _ _ B P3) as ->.
      destruct u as [|u]; [cbn in L; lia|]. cbn [Nat.eqb].
      assert (U : 0 < qz (Z.of_nat (S u))) by (change 0 with (inject_Z 0); unfold qz; rewrite <- Zlt_Qlt; lia).
      assert (QG : q <= g) by (rewrite <- H; apply qmax_r).
      unfold q in QG. apply qdiv_le_iff in QG; [|exact U].
      rewrite <- P5, <- P6. lra.
Qed.
