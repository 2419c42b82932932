(** The swing-tank running volume: lists of minutes and the loop over the probed hours. *)
From Verif Require Import Prelude M_StratifiedTank M_Building M_Heater M_Sizing S_Sizing L_Building L_Sizing L_Sizing3 M_Swing S_Swing L_Swing.
Open Scope Q_scope.

(** ** Hours to minutes *)
Lemma hr_to_min_length l : length (hr_to_min l) = (length l * 60)%nat.
Proof.
  unfold hr_to_min. induction l as [|x l IH]; [reflexivity|].
  cbn [flat_map length]. rewrite app_length, repeat_length, IH. lia.
Qed.
Lemma hr_to_min_nth l : forall n, (n < length l * 60)%nat -> nth n (hr_to_min l) 0 = nth (n / 60) l 0.
Proof.
  unfold hr_to_min. induction l as [|x l IH]; intros n H; [cbn in H; lia|].
  cbn [flat_map length] in *. destruct (Nat.lt_ge_cases n 60) as [A|A].
  - rewrite app_nth1 by (rewrite repeat_length; exact A). rewrite Nat.div_small by exact A. cbn [nth].
    rewrite nth_indep with (d' := x) by (rewrite repeat_length; exact A). apply nth_repeat.
  - rewrite app_nth2 by (rewrite repeat_length; exact A). rewrite repeat_length, IH by lia.
    replace n with ((n - 60) + 1 * 60)%nat at 2 by lia. rewrite Nat.div_add by lia. rewrite Nat.add_1_r. reflexivity.
Qed.

Lemma day_from_length l i : length l = 24%nat -> (i <= 24)%nat -> length (day_from l i) = 24%nat.
Proof. intros L H. unfold day_from. rewrite firstn_length, skipn_length, app_length. lia. Qed.
Lemma nth_firstn {A} (l : list A) k n d : (k < n)%nat -> nth k (firstn n l) d = nth k l d.
Proof.
  revert k l. induction n as [|n IH]; intros k l H; [lia|].
  destruct l as [|x l]; [destruct k; reflexivity|]. destruct k as [|k]; [reflexivity|]. cbn [firstn nth]. apply IH. lia.
Qed.
Lemma day_from_nth l i k : length l = 24%nat -> (i < 24)%nat -> (k < 24)%nat ->
  nth k (day_from l i) 0 = nth ((i + k) mod 24) l 0.
Proof.
  intros L H K. unfold day_from. rewrite nth_firstn by exact K. rewrite nth_skipn.
  rewrite nth_double by lia. unfold day_fun. rewrite L. reflexivity.
Qed.

Lemma forall2_nth l l' : length l = length l' -> (forall n, (n < length l)%nat -> nth n l 0 == nth n l' 0) -> Forall2 Qeq l l'.
Proof.
  revert l'. induction l as [|x l IH]; intros [|y l'] L H; try discriminate; constructor.
  - apply (H 0%nat). cbn. lia.
  - apply IH; [cbn in L; lia|]. intros n N. apply (H (S n)). cbn. lia.
Qed.
Lemma forall2_seq l f : (forall n, (n < length l)%nat -> nth n l 0 == f n) -> Forall2 Qeq l (map f (seq 0 (length l))).
Proof.
  intro H. apply forall2_nth; [rewrite map_length, seq_length; reflexivity|].
  intros n N. rewrite H by exact N. rewrite nth_indep with (d' := f 0%nat) by (rewrite map_length, seq_length; exact N).
  rewrite map_nth, seq_nth by exact N. reflexivity.
Qed.

Lemma nth_map (f : Q -> Q) l n d : (n < length l)%nat -> nth n (map f l) d = f (nth n l 0).
Proof. intro H. rewrite nth_indep with (d' := f 0) by (rewrite map_length; exact H). apply map_nth. Qed.

Definition day_list (daily : Q) (shape : list Q) (i : nat) : list Q :=
  map (fun x => x / 60 * daily) (hr_to_min (day_from shape i)).
Lemma day_list_length daily shape i : length shape = 24%nat -> (i < 24)%nat -> length (day_list daily shape i) = day_minutes.
Proof. intros L H. unfold day_list. rewrite map_length, hr_to_min_length, day_from_length by lia. reflexivity. Qed.
Lemma day_list_nth daily shape i n : length shape = 24%nat -> (i < 24)%nat -> (n < day_minutes)%nat ->
  nth n (day_list daily shape i) 0 == minute_demand daily shape i n.
Proof.
  intros L H N. unfold day_list, minute_demand. unfold day_minutes in N.
  rewrite nth_map by (rewrite hr_to_min_length, day_from_length by lia; lia).
  rewrite hr_to_min_nth by (rewrite day_from_length by lia; lia).
  rewrite day_from_nth by (try lia; apply Nat.div_lt_upper_bound; lia). rewrite L. field.
Qed.

Lemma day_list_cons daily shape i : length shape = 24%nat -> (i < 24)%nat ->
  exists x r, day_list daily shape i = x :: r /\ x == minute_demand daily shape i 0 /\
    Forall2 Qeq r (map (minute_demand daily shape i) (seq 1 (day_minutes - 1))) /\ length r = (day_minutes - 1)%nat.
Proof.
  intros L H. pose proof (day_list_length daily shape i L H) as LN.
  destruct (day_list daily shape i) as [|x r] eqn:E; [discriminate LN|].
  pose proof (fun n N => day_list_nth daily shape i n L H N) as NT. rewrite E in NT. cbn [length] in LN.
  assert (LR : length r = (day_minutes - 1)%nat) by lia.
  exists x, r. split; [reflexivity|]. split; [apply (NT 0%nat); unfold day_minutes; lia|]. split; [|exact LR].
  rewrite <- LR. rewrite <- seq_shift, map_map. apply forall2_seq.
  intros n N. apply (NT (S n)). lia.
Qed.

Lemma forall2_sym l l' : Forall2 Qeq l l' -> Forall2 Qeq l' l.
Proof. induction 1; constructor; auto. symmetry. assumption. Qed.
Lemma swing_days_proper k on t l tr : swing_days k on t l tr -> forall l', Forall2 Qeq l l' -> swing_days k on t l' tr.
Proof.
  induction 1; intros l' F; inversion F; subst; [constructor|].
  econstructor; eauto. unfold meets_demand in *. rewrite H. rewrite H5. reflexivity.
Qed.

(** ** totals *)
Lemma total_qsum l : forall n, (n <= length l)%nat -> total (fun i => nth i l 0) n == wsum (fun i => nth i l 0) 0 n.
Proof. induction n as [|n IH]; intro H; [reflexivity|]. cbn [total wsum]. rewrite IH by lia. reflexivity. Qed.
Lemma total_wsum f n : total f n == wsum f 0 n.
Proof. induction n as [|n IH]; [reflexivity|]. cbn [total wsum]. rewrite IH. reflexivity. Qed.
Lemma total_ext f g n : (forall i, (i < n)%nat -> f i == g i) -> total f n == total g n.
Proof. intro H. induction n as [|n IH]; [reflexivity|]. cbn [total]. rewrite IH by (intros; apply H; lia). rewrite (H n) by lia. reflexivity. Qed.
Lemma total_nonneg f n : (forall i, (i < n)%nat -> 0 <= f i) -> 0 <= total f n.
Proof. intro H. induction n as [|n IH]; cbn [total]; [lra|]. pose proof (H n ltac:(lia)). assert (0 <= total f n) by (apply IH; intros; apply H; lia). lra. Qed.
Lemma total_le f g n : (forall i, (i < n)%nat -> f i <= g i) -> total f n <= total g n.
Proof. intro H. induction n as [|n IH]; cbn [total]; [lra|]. pose proof (H n ltac:(lia)). assert (total f n <= total g n) by (apply IH; intros; apply H; lia). lra. Qed.

Lemma in_cumsum l x : In x (cumsum l) <-> exists n, (n < length l)%nat /\ x = nth n (cumsum l) 0.
Proof.
  split.
  - intro H. destruct (In_nth _ _ 0 H) as (n & N & E). unfold cumsum in N. rewrite cumsum_length in N. exists n. auto.
  - intros (n & N & ->). apply nth_In. unfold cumsum. rewrite cumsum_length. exact N.
Qed.

(** The worst cumulative deficit of [gen - use]. *)
Lemma worst_diff g use : length g = length use -> forall diff, vsub g use = Ok diff ->
  match worst_deficit (cumsum diff) with
  | None => forall n, (n <= length use)%nat -> total (fun i => nth i use 0 - nth i g 0) n <= 0
  | Some m => 0 < m /\ (forall n, (n <= length use)%nat -> total (fun i => nth i use 0 - nth i g 0) n <= m) /\
              exists n, (n <= length use)%nat /\ total (fun i => nth i use 0 - nth i g 0) n == m
  end.
Proof.
  intros LE diff V. apply vsub_spec in V. destruct V as (_ & LD & ND).
  assert (C : forall n, (n < length use)%nat -> nth n (cumsum diff) 0 == - total (fun i => nth i use 0 - nth i g 0) (S n)).
  { intros n N. unfold cumsum. rewrite cumsum_nth by lia. rewrite total_wsum.
    assert (E : wsum (fun i => nth i diff 0) 0 (S n) == wsum (fun i => - (nth i use 0 - nth i g 0)) 0 (S n)).
    { apply wsum_ext. intros k _. rewrite Nat.add_0_l, ND. lra. }
    rewrite E. clear E. generalize (S n). intro m. induction m as [|m IH]; [reflexivity|]. cbn [wsum].
    lra. }
  pose proof (worst_deficit_spec (cumsum diff)) as W. destruct (worst_deficit (cumsum diff)) as [m|].
  - destruct W as (M0 & M1 & x & X & ->). split; [exact M0|]. split.
    + intros [|n] N; [cbn [total]; lra|].
      assert (I : In (nth n (cumsum diff) 0) (cumsum diff)) by (apply in_cumsum; exists n; split; [lia|reflexivity]).
      apply M1 in I. rewrite C in I by lia. lra.
    + apply in_cumsum in X. destruct X as (n & N & E). exists (S n). split; [lia|]. rewrite E, C by lia. lra.
  - intros [|n] N; [cbn [total]; lra|].
    assert (I : In (nth n (cumsum diff) 0) (cumsum diff)) by (apply in_cumsum; exists n; split; [lia|reflexivity]).
    apply W in I. rewrite C in I by lia. lra.
Qed.

Lemma forall2_map_r {A B C} (P : A -> C -> Prop) (f : B -> C) l r :
  Forall2 (fun x p => P x (f p)) l r -> Forall2 P l (map f r).
Proof. induction 1; constructor; auto. Qed.
Lemma forall2_qsum l r : Forall2 (fun x y => 0 <= y <= x) l r -> 0 <= qsum r <= qsum l.
Proof. induction 1; cbn [qsum]; lra. Qed.
Lemma hr_to_min_sum l : qsum (hr_to_min l) == 60 * qsum l.
Proof.
  unfold hr_to_min. induction l as [|x l IH]; [reflexivity|]. cbn [flat_map qsum]. rewrite qsum_app, IH, qsum_repeat.
  change (qz (Z.of_nat 60)) with 60. ring.
Qed.
Lemma day_from_sum l i : length l = 24%nat -> (i <= 24)%nat -> qsum (day_from l i) == qsum l.
Proof.
  intros L H. unfold day_from.
  assert (E : firstn 24 (skipn i (l ++ l)) = skipn i l ++ firstn i l).
  { rewrite skipn_app, firstn_app. rewrite skipn_length, L. replace (24 - (24 - i))%nat with i by lia.
    replace (i - 24)%nat with 0%nat by lia. cbn [skipn]. f_equal. apply firstn_all2. rewrite skipn_length. lia. }
  rewrite E, qsum_app. rewrite <- (firstn_skipn i l) at 3. rewrite qsum_app. ring.
Qed.
Lemma day_list_sum daily shape i : length shape = 24%nat -> (i < 24)%nat -> qsum (day_list daily shape i) == daily * qsum shape.
Proof.
  intros L H. unfold day_list.
  assert (E : forall l, qsum (map (fun x => x / 60 * daily) l) == qsum l * (daily / 60)).
  { induction l as [|x l IH]; cbn [map qsum]; [ring|]. rewrite IH. field. }
  rewrite E, hr_to_min_sum, day_from_sum by lia. field.
Qed.

(** ** One probed hour *)
Lemma sim_just_ok v l : 0 < sv_vol v -> 0 <= sv_loss v -> sv_loss v <= sv_cap v -> sv_inlet v < sv_supply v ->
  sv_supply v <= sv_storage v -> l <> [] -> (forall x, In x l -> 0 <= x < sv_vol v) ->
  exists x r rest, l = x :: r /\
    sim_just_swing v l (sv_supply v + (1 # 10)) = Ok ((sv_supply v + (1 # 10), 0, x) :: rest) /\
    swing_days (tank_of v) false (sv_supply v + (1 # 10)) r rest /\
    (forall t run hw, In (t, run, hw) rest -> sv_supply v <= t <= qmax (qmax (sv_supply v + (1 # 10)) (sv_storage v)) (sv_supply v + 8)) /\
    length rest = length r /\
    Forall2 (fun a b => 0 <= b <= a) l (hw_of ((sv_supply v + (1 # 10), 0, x) :: rest)).
Proof.
  intros V L0 LC I ST NE B. destruct l as [|x r]; [congruence|].
  assert (INV : swing_inv v false (sv_supply v + (1 # 10))).
  { split; [lra|]. right. split; [reflexivity|lra]. }
  destruct (sim_loop_ok v V L0 LC I ST r false _ (fun y Y => B y (or_intror Y)) INV) as (rest & R & SD & T & F2).
  exists x, r, rest. split; [reflexivity|]. cbn [sim_just_swing]. rewrite R. cbn [bind]. split; [reflexivity|].
  split; [exact SD|]. split; [exact T|]. split.
  - clear - F2. induction F2; cbn [length]; auto.
  - unfold hw_of. cbn [map snd]. constructor.
    + pose proof (B x (or_introl eq_refl)). lra.
    + exact (forall2_map_r (fun a b => 0 <= b <= a) snd _ _ F2).
Qed.

Lemma vsub_total : forall a b, length a = length b -> exists l, vsub a b = Ok l.
Proof.
  induction a as [|x a IH]; intros [|y b] H; try discriminate; cbn [vsub]; [eexists; reflexivity|].
  destruct (IH b) as (l & ->); [cbn in H; lia|]. cbn [bind]. eexists. reflexivity.
Qed.

(** Everything the sizing run needs. *)
Record swing_ready (v : swing_env) (run daily : Q) (shape : list Q) : Prop := {
  sr_vol : 0 < sv_vol v; sr_loss : 0 <= sv_loss v; sr_cap : sv_loss v <= sv_cap v;
  sr_inlet : sv_inlet v < sv_supply v; sr_storage : sv_supply v <= sv_storage v;
  sr_run : 0 < run; sr_daily : 0 < daily; sr_len : length shape = 24%nat;
  sr_shape : forall x, In x shape -> 0 <= x /\ daily * x < 60 * sv_vol v }.

Lemma day_list_bounds v run daily shape i : swing_ready v run daily shape -> (i < 24)%nat ->
  forall x, In x (day_list daily shape i) -> 0 <= x < sv_vol v.
Proof.
  intros R H x X. unfold day_list in X. apply in_map_iff in X. destruct X as (y & <- & Y).
  unfold hr_to_min in Y. apply in_flat_map in Y. destruct Y as (z & Z & Y). apply repeat_spec in Y. subst y.
  assert (Zs : In z shape).
  { unfold day_from in Z. apply (In_nth _ _ 0) in Z. destruct Z as (n & N & <-).
    fold (day_from shape i) in *. rewrite day_from_length in N by (try apply (sr_len _ _ _ _ R); lia).
    rewrite day_from_nth by (try apply (sr_len _ _ _ _ R); lia).
    apply nth_In. rewrite (sr_len _ _ _ _ R). apply Nat.mod_upper_bound. lia. }
  destruct (sr_shape _ _ _ _ R z Zs) as [A B]. pose proof (sr_daily _ _ _ _ R).
  assert (E : z / 60 * daily == (daily * z) * (1 # 60)) by field. rewrite E.
  assert (0 <= daily * z) by (apply qmul_nonneg; lra). lra.
Qed.

Lemma peak_ok v run daily shape i : swing_ready v run daily shape -> (i < 24)%nat ->
  exists mix d draw, swing_peak v run daily shape i = Ok (mix, d) /\
    day_draws (tank_of v) daily shape i draw /\
    mix * daily == total draw day_minutes /\ 0 <= mix <= qsum shape /\
    (forall n, (n < day_minutes)%nat -> 0 <= draw n <= minute_demand daily shape i n) /\
    match d with
    | None => forall n, (n <= day_minutes)%nat -> total (fun j => draw j - daily * mix / run / 60) n <= 0
    | Some m => 0 < m /\ (forall n, (n <= day_minutes)%nat -> total (fun j => draw j - daily * mix / run / 60) n <= m) /\
                exists n, (n <= day_minutes)%nat /\ total (fun j => draw j - daily * mix / run / 60) n == m
    end.
Proof.
  intros R H.
  pose proof (sr_len _ _ _ _ R) as L. pose proof (sr_daily _ _ _ _ R) as D. pose proof (sr_run _ _ _ _ R) as RR.
  destruct (day_list_cons daily shape i L H) as (x0 & r0 & E0 & X0 & F0 & LR).
  destruct (sim_just_ok v (day_list daily shape i) (sr_vol _ _ _ _ R) (sr_loss _ _ _ _ R) (sr_cap _ _ _ _ R)
     (sr_inlet _ _ _ _ R) (sr_storage _ _ _ _ R)) as (x & r & rest & E1 & SJ & SD & T & LT & F2).
  { rewrite E0. discriminate. }
  { apply (day_list_bounds v run); assumption. }
  assert (x = x0 /\ r = r0) by (split; congruence). destruct H0 as [-> ->].
  set (hws := hw_of ((sv_supply v + (1 # 10), 0, x0) :: rest)) in *.
  assert (LH : length hws = day_minutes).
  { unfold hws, hw_of. rewrite map_length. cbn [length]. rewrite LT, LR. unfold day_minutes. lia. }
  unfold swing_peak. fold (day_list daily shape i). rewrite SJ. cbn [bind]. fold hws.
  rewrite qdiv_ok by lra. cbn [bind]. rewrite qdiv_ok by lra. cbn [bind].
  set (mix := qsum hws / daily).
  set (gen := map (fun x => x / 60 * daily * mix) (hr_to_min (day_from (repeat (1 / run) 24) i))).
  assert (LG : length gen = length hws).
  { unfold gen. rewrite map_length, hr_to_min_length, day_from_length; [rewrite LH; reflexivity|apply repeat_length|lia]. }
  assert (NG : forall n, (n < day_minutes)%nat -> nth n gen 0 == daily * mix / run / 60).
  { intros n N. unfold day_minutes in N. unfold gen.
    assert (RL : length (repeat (1 / run) 24) = 24%nat) by apply repeat_length.
    rewrite nth_map by (rewrite hr_to_min_length, day_from_length by lia; lia).
    rewrite hr_to_min_nth by (rewrite day_from_length by lia; lia).
    rewrite day_from_nth by (try lia; apply Nat.div_lt_upper_bound; lia).
    set (q := ((i + n / 60) mod 24)%nat). assert (Q24 : (q < 24)%nat) by (apply Nat.mod_upper_bound; lia).
    rewrite nth_indep with (d' := 1 / run) by (rewrite RL; exact Q24). rewrite nth_repeat. field. lra. }
  destruct (vsub_total gen hws LG) as (diff & VS). rewrite VS. cbn [bind].
  assert (TS : total (fun j => nth j hws 0) day_minutes == qsum hws).
  { rewrite qsum_wsum, total_wsum, LH. reflexivity. }
  pose proof (worst_diff gen hws LG diff VS) as W. rewrite LH in W.
  assert (TE : forall n, (n <= day_minutes)%nat -> total (fun j => nth j hws 0 - nth j gen 0) n == total (fun j => nth j hws 0 - daily * mix / run / 60) n).
  { intros n N. apply total_ext. intros j J. rewrite NG by lia. reflexivity. }
  exists mix, (worst_deficit (cumsum diff)), (fun j => nth j hws 0).
  split; [reflexivity|]. split.
  { split; [unfold hws, hw_of; cbn [map nth snd]; exact X0|]. exists rest. split; [exact (swing_days_proper _ _ _ _ _ SD _ F0)|].
    split; [|intros t rn hw I; apply (T _ _ _ I)]. intros n N. unfold hws, hw_of. cbn [map nth].
    change 0 with (snd (0, 0, 0 : Q)) at 1. rewrite map_nth. reflexivity. }
  split; [rewrite TS; unfold mix; apply qdiv_mul; lra|]. split.
  { destruct (forall2_qsum _ _ F2) as [A B]. rewrite day_list_sum in B by assumption. unfold mix.
    split; [apply qdiv_nonneg; assumption|apply qdiv_le_iff; [exact D|lra]]. }
  split.
  { intros n N. pose proof (day_list_nth daily shape i n L H N) as DN. rewrite <- DN.
    rewrite <- LH in N. clear - F2 N. clearbody hws. revert n N. induction F2; intros n N; [cbn in N; lia|].
    destruct n as [|n]; cbn [nth]; [lra|]. apply IHF2. cbn [length] in N. lia. }
  destruct (worst_deficit (cumsum diff)) as [m|].
  - destruct W as (M0 & M1 & n & N & EN). split; [exact M0|]. split.
    + intros j J. rewrite <- TE by exact J. apply M1. exact J.
    + exists n. split; [exact N|]. rewrite <- TE by exact N. exact EN.
  - intros n N. rewrite <- TE by exact N. apply W. exact N.
Qed.
