(** C40-C42: sizing leaves its inputs alone; sizing curves. *)
From Verif Require Import Prelude M_StratifiedTank M_Building M_Heater M_Sizing S_Sizing
  L_Heater L_Building L_Sizing L_Sizing2 L_Sizing3 L_Sizing4 P_Sizing.
Open Scope Q_scope.

(** ** C40 Sizing leaves its inputs as it found them *)

(** size: run hours and temperatures are restored on every exit, whatever the class computes or raises. *)
Theorem C40_size_keeps_system : forall K lib s b sched m slope fract s' b' out,
  dhw_size K lib s b sched m slope fract = (s', b', out) ->
  dh_run s' = dh_run s /\ dh_supply s' = dh_supply s /\ dh_storage s' = dh_storage s /\ dh_defrost s' = dh_defrost s.
Proof. exact size_fields. Qed.
Print Assumptions C40_size_keeps_system.

(** size: a building with daily shapes is untouched on every exit; one with the library's annual shape
    is restored on success. *)
Theorem C40_size_keeps_daily_building : forall K lib s b sched m slope fract s' b' out,
  bd_is_annual b = false -> dhw_size K lib s b sched m slope fract = (s', b', out) -> b' = b.
Proof. exact size_daily_building. Qed.
Print Assumptions C40_size_keeps_daily_building.

Theorem C40_size_restores_annual : forall K lib s b sched m slope fract s' b' w,
  (bd_is_annual b = true -> library_annual lib b) ->
  dhw_size K lib s b sched m slope fract = (s', b', Ok w) -> b' = b.
Proof. exact size_annual_success. Qed.
Print Assumptions C40_size_restores_annual.

(** size: whenever an annual building's sizing raises after the switch, it is left with daily shapes. *)
Theorem C40_size_error_loses_annual : forall K lib s b b1 sched m slope fract s' b' e,
  bd_is_annual b = true -> bd_set_daily lib b = Ok b1 ->
  dhw_size K lib s b sched m slope fract = (s', b', Err e) -> b' = b1.
Proof.
  intros K lib s b b1 sched m slope fract s' b' e A D H. unfold dhw_size in H. rewrite A, D in H.
  destruct (size_try K (cap_run s sched m) b1 sched m slope fract) as [s2 [w|x]].
  - destruct (bd_set_annual lib b1); inversion H; reflexivity.
  - inversion H; reflexivity.
Qed.
Print Assumptions C40_size_error_loses_annual.

(** ... and that happens: no design inlet temperature. *)
Theorem C40_size_annual_error_refuted : exists lib s b s' b' e,
  bd_is_annual b = true /\ library_annual lib b /\
  dhw_size base_klass lib s b None None 2 1 = (s', b', Err e) /\ bd_is_annual b' = false /\ b' <> b.
Proof.
  set (an := repeat (1 # 365) (Z.to_nat 8760)).
  set (f := mkShapeFile ex_shape (Some ex_shape) (Some an)).
  set (lib := mkLibrary (fun ty => if String.eqb ty "multi_family" then Some f else None) (fun _ => Err KeyError) (fun _ => 0)).
  set (b := mkBuilding None 1000 an an "multi_family").
  assert (LN : length an = Z.to_nat 8760) by (unfold an; apply repeat_length).
  assert (A : bd_is_annual b = true).
  { unfold bd_is_annual, b. cbn [bd_peak]. rewrite LN, Z2Nat.id by lia. reflexivity. }
  exists lib, ex_dhw, b, ex_dhw, (mkBuilding None 1000 ex_shape ex_shape "multi_family"), ValueError.
  split; [exact A|]. split; [exists f; repeat split; reflexivity|].
  assert (D : bd_set_daily lib b = Ok (mkBuilding None 1000 ex_shape ex_shape "multi_family")) by reflexivity.
  split.
  - unfold dhw_size. rewrite A, D. reflexivity.
  - split; [reflexivity|]. intro C. rewrite <- C in A. discriminate A.
Qed.
Print Assumptions C40_size_annual_error_refuted.

(** Sizing curves: system and building are restored on every exit, including errors. *)
Theorem C40_curve_restores : forall K lib s b cmap slope step s' b' out,
  (bd_is_annual b = true -> library_annual lib b) ->
  sizing_curve K lib s b cmap slope step = (s', b', out) -> s' = s /\ b' = b.
Proof.
  intros K lib s b cmap slope step s' b' out A H. unfold sizing_curve in H.
  destruct (if bd_is_annual b then bd_set_daily lib b else Ok b) as [b1|e] eqn:E.
  - pose proof (curve_body_state K s b1 cmap slope step) as S.
    destruct (curve_body K s b1 cmap slope step) as [s2 o]. cbn [fst] in S. subst s2.
    rewrite (restore_annual_back _ _ _ _ A E) in H. inversion H; auto.
  - inversion H; auto.
Qed.
Print Assumptions C40_curve_restores.

Theorem C40_ls_curve_restores : forall K lib icdf s b sched m slope p s' b' out,
  (bd_is_annual b = true -> library_annual lib b) ->
  ls_sizing_curve K lib icdf s b sched m slope p = (s', b', out) -> s' = s /\ b' = b.
Proof.
  intros K lib icdf s b sched m slope p s' b' out A H. unfold ls_sizing_curve in H.
  destruct m as [d|]; [|inversion H; auto]. destruct (negb (dict_has d "shed")); [inversion H; auto|].
  destruct (if bd_is_annual b then bd_set_daily lib b else Ok b) as [b1|e] eqn:E; [|inversion H; auto].
  rewrite (restore_annual_back _ _ _ _ A E) in H. inversion H. split; [rewrite dh_set_run_twice; apply dh_set_run_same|reflexivity].
Qed.
Print Assumptions C40_ls_curve_restores.

(** The recirculation boost of single-pass return-to-primary load-shift sizing is undone on every exit. *)
Theorem C40_boost_restored : forall b r f b' out,
  with_boost b r f = (b', out) ->
  bd_daily b' == bd_daily b /\ bd_climate b' = bd_climate b /\ bd_peak b' = bd_peak b /\
  bd_avg b' = bd_avg b /\ bd_type b' = bd_type b.
Proof. intros b r f b' out H. inversion H; subst. cbn. repeat split; try reflexivity. ring. Qed.
Print Assumptions C40_boost_restored.

Example C40_case : exists out,
  sizing_curve base_klass ex_lib ex_dhw ex_building ex_map 2 4 = (ex_dhw, ex_building, Ok out) /\ (2 <= length (cv_hours out))%nat.
Proof.
  destruct (sizing_curve base_klass ex_lib ex_dhw ex_building ex_map 2 4) as [[s b] o] eqn:E.
  destruct (C40_curve_restores base_klass ex_lib ex_dhw ex_building ex_map 2 4 s b o) as [-> ->]; [discriminate|exact E|].
  vm_compute in E. inversion E; subst. eexists. split; [reflexivity|]. cbn. lia.
Qed.
Example C40_annual_case : exists lib b, bd_is_annual b = true /\ library_annual lib b /\ bd_set_daily lib b <> Ok b.
Proof.
  set (an := repeat (1 # 365) (Z.to_nat 8760)).
  set (f := mkShapeFile ex_shape (Some ex_shape) (Some an)).
  exists (mkLibrary (fun ty => if String.eqb ty "multi_family" then Some f else None) (fun _ => Err KeyError) (fun _ => 0)),
         (mkBuilding None 1000 an an "multi_family").
  assert (LN : length an = Z.to_nat 8760) by (unfold an; apply repeat_length).
  assert (A : bd_is_annual (mkBuilding None 1000 an an "multi_family") = true).
  { unfold bd_is_annual. cbn [bd_peak]. rewrite LN, Z2Nat.id by lia. reflexivity. }
  split; [exact A|]. split; [exists f; repeat split; reflexivity|].
  intro C. apply ok_inj in C. rewrite <- C in A. discriminate A.
Qed.

(** ** C41 Sizing curve *)
Lemma nth_firstn_lt {A} (l : list A) n i dflt : (i < n)%nat -> nth i (firstn n l) dflt = nth i l dflt.
Proof.
  revert n i. induction l as [|x l IH]; intros [|n] i H; try lia; [destruct i; reflexivity|].
  destruct i as [|i]; [reflexivity|]. cbn [firstn nth]. apply IH. lia.
Qed.

Lemma in_nth_lt (l : list Q) n x : In x (firstn n l) -> exists i, (i < n)%nat /\ (i < length l)%nat /\ nth i l 0 = x.
Proof.
  intro H. apply (In_nth _ _ 0) in H. destruct H as (i & Hi & E). rewrite firstn_length in Hi.
  exists i. repeat split; try lia. rewrite nth_firstn_lt in E by lia. exact E.
Qed.

(** For every system class: series of equal length, strictly decreasing run hours, a valid recommended
    index that points at the configured run hours when the sweep reaches them and at the last point otherwise. *)
Theorem C41_well_formed : forall K lib s b cmap slope step s' b' cv,
  0 < step -> sizing_curve K lib s b cmap slope step = (s', b', Ok cv) ->
  length (cv_capacity cv) = length (cv_hours cv) /\ length (cv_storage cv) = length (cv_hours cv) /\
  strictly_decreasing (cv_hours cv) /\
  (dh_run s <= 24 -> forall h r, cv_hours cv = h :: r -> h == 24) /\
  (cv_hours cv <> [] -> (0 <= cv_rec cv < Z.of_nat (length (cv_hours cv)))%Z) /\
  ((exists h, In h (cv_hours cv) /\ h <= dh_run s) -> nth (Z.to_nat (cv_rec cv)) (cv_hours cv) 0 == dh_run s) /\
  (cv_hours cv <> [] -> (forall h, In h (cv_hours cv) -> dh_run s < h) -> cv_rec cv = (Z.of_nat (length (cv_hours cv)) - 1)%Z).
Proof.
  intros K lib s b cmap slope step s' b' cv Hst H.
  destruct (curve_inv _ _ _ _ _ _ _ _ _ _ H) as (b1 & inlet & f & lo & a1 & a2 & s1 & pts & Hb & Hi & Hf & Hlo & A1 & A2 & L & ->).
  cbn [cv_hours cv_capacity cv_storage cv_rec].
  destruct (curve_loop_points _ _ _ _ _ _ _ L) as (P1 & P2 & P3).
  destruct (arange_desc _ _ _ _ Hst A1) as (D1 & I1 & N1 & E1).
  destruct (arange_desc _ _ _ _ Hst A2) as (D2 & I2 & N2 & E2).
  assert (SD : strictly_decreasing (a1 ++ a2)).
  { apply sd_app; auto. intros x y X Y. destruct (I1 _ X). destruct (I2 _ Y). lra. }
  rewrite !map_length. repeat (split; [reflexivity|]). rewrite P1.
  split; [apply sd_firstn; exact SD|].
  split.
  { intros R h r E. destruct (Qlt_le_dec (dh_run s) 24) as [Lt|Ge].
    - destruct (N1 Lt) as (q & ->). destruct pts as [|p pts]; [discriminate E|]. cbn [length app firstn] in E.
      injection E as <- _. change (qz 0) with 0. lra.
    - rewrite (E1 Ge) in E. cbn [app] in E. destruct pts as [|p pts]; [discriminate E|].
      destruct a2 as [|y a2]; [discriminate E|]. cbn [length firstn] in E. injection E as <- _.
      destruct (Qlt_le_dec lo (dh_run s)) as [Q1|Q1]; [|pose proof (E2 Q1); discriminate].
      destruct (N2 Q1) as (q & Y). injection Y as -> _. change (qz 0) with 0. lra. }
  assert (NN : firstn (length pts) (a1 ++ a2) <> [] -> (0 < length pts)%nat).
  { intro X. destruct pts; [exfalso; apply X; reflexivity|cbn; lia]. }
  split; [intro X; specialize (NN X); lia|].
  split.
  - intros (h & X & Y). apply in_nth_lt in X. destruct X as (i & X1 & X2 & X3).
    assert (LI : (length a1 <= i)%nat).
    { destruct (Nat.le_gt_cases (length a1) i) as [C|C]; [exact C|exfalso].
      rewrite app_nth1 in X3 by exact C. destruct (I1 (nth i a1 0)) as [_ Z]; [apply nth_In; exact C|]. rewrite X3 in Z. lra. }
    replace (Z.to_nat (Z.min (Z.of_nat (length a1)) (Z.max 0 (Z.of_nat (length pts) - 1)))) with (length a1) by lia.
    rewrite nth_firstn_lt by lia. rewrite app_nth2 by lia. rewrite Nat.sub_diag.
    rewrite app_length in X2. destruct a2 as [|y a2]; [cbn in X2; lia|].
    destruct (Qlt_le_dec lo (dh_run s)) as [Q1|Q1]; [|pose proof (E2 Q1); discriminate].
    destruct (N2 Q1) as (q & Z). injection Z as -> _. cbn [nth]. change (qz 0) with 0. lra.
  - intros X Y. specialize (NN X).
    assert (LI : (length pts <= length a1)%nat).
    { destruct (Nat.le_gt_cases (length pts) (length a1)) as [C|C]; [exact C|exfalso].
      destruct a2 as [|y a2]; [rewrite app_length in P2; cbn in P2; lia|].
      assert (IN : In y (firstn (length pts) (a1 ++ y :: a2))).
      { assert (E : nth (length a1) (firstn (length pts) (a1 ++ y :: a2)) 0 = y).
        { rewrite nth_firstn_lt by exact C. rewrite app_nth2 by lia. rewrite Nat.sub_diag. reflexivity. }
        rewrite <- E at 1. apply nth_In. rewrite firstn_length. lia. }
      destruct (I2 y (or_introl eq_refl)) as [Z _]. specialize (Y _ IN). lra. }
    lia.
Qed.
Print Assumptions C41_well_formed.

(** Every point of the curve is what size returns at those run hours. *)
Theorem C41_points_agree_with_size : forall K lib s b cmap slope step s' b' cv i h c v fract s1 b1 out,
  sizing_curve K lib s b cmap slope step = (s', b', Ok cv) ->
  nth_error (cv_hours cv) i = Some h -> nth_error (cv_capacity cv) i = Some c -> nth_error (cv_storage cv) i = Some v ->
  dhw_size K lib (dh_set_run s h) b None cmap (match dh_slope s with Some x => x | None => slope end) fract = (s1, b1, out) ->
  dh_min_cap s1 = Some c /\ dh_min_stor s1 = Some v.
Proof.
  intros K lib s b cmap slope step s' b' cv i h c v fract s1 b1 out H Eh Ec Ev SZ.
  destruct (curve_inv _ _ _ _ _ _ _ _ _ _ H) as (bb & inlet & f & lo & a1 & a2 & s2 & pts & Hb & Hi & Hf & _ & _ & _ & L & ->).
  cbn [cv_hours cv_capacity cv_storage] in *. rewrite nth_error_map in Eh, Ec, Ev.
  destruct (nth_error pts i) as [[[h' c'] v']|] eqn:N; [|discriminate]. cbn in Eh, Ec, Ev.
  injection Eh as <-. injection Ec as <-. injection Ev as <-.
  destruct (curve_loop_points _ _ _ _ _ _ _ L) as (_ & _ & P3).
  apply nth_error_In in N. apply P3 in N. apply curve_point_inv in N. destruct N as (rv & X1 & X2 & _ & X4).
  unfold dhw_size in SZ. rewrite Hb in SZ.
  assert (V : size_values K (dh_set_run s h') bb None cmap (match dh_slope s with Some x => x | None => slope end) fract = Ok (c', v')).
  { unfold size_values. rewrite Hi. cbn [bind]. rewrite X1. cbn [bind]. rewrite X2. cbn [bind].
    change (strat_factor (dh_set_run s h') cmap (match dh_slope s with Some x => x | None => slope end) inlet)
      with (strat_factor s cmap (slope_or s slope) inlet). rewrite Hf. cbn [bind]. rewrite X4. reflexivity. }
  unfold size_try in SZ. cbn [cap_run] in SZ. rewrite V in SZ.
  destruct (match map_of cmap with [] => Ok [] | x :: l => _ end) as [w|e].
  - destruct (bd_is_annual b); [destruct (bd_set_annual lib bb)|]; inversion SZ; split; reflexivity.
  - inversion SZ; split; reflexivity.
Qed.
Print Assumptions C41_points_agree_with_size.

(** Trade-off along the curve of the base system: capacity strictly increases, storage never increases. *)
Theorem C41_trade_off : forall lib s b b1 cmap slope step s' b' cv inlet factor,
  (if bd_is_annual b then bd_set_daily lib b else Ok b) = Ok b1 ->
  0 < step -> sizing_curve base_klass lib s b cmap slope step = (s', b', Ok cv) ->
  design_inlet b1 = Ok inlet -> inlet < dh_supply s -> 0 < dh_defrost s -> 0 < dh_run s <= 24 -> 0 < bd_daily b1 ->
  (forall x, In x (bd_peak b1) -> 0 <= x) -> 24 * qsum (bd_peak b1) <= qz (Z.of_nat (length (bd_peak b1))) ->
  strat_factor s cmap (match dh_slope s with Some x => x | None => slope end) inlet = Ok factor -> 0 <= factor ->
  strictly_increasing (cv_capacity cv) /\ non_increasing (cv_storage cv) /\ (forall h, In h (cv_hours cv) -> 0 < h).
Proof.
  intros lib s b b1 cmap slope step s' b' cv inlet factor Hb Hst H Hi Hs Hd Hr Hm Sh Sq Hf F0.
  destruct (C41_well_formed _ _ _ _ _ _ _ _ _ _ Hst H) as (_ & _ & SD & _).
  destruct (curve_inv _ _ _ _ _ _ _ _ _ _ H) as (bb & inl & f & lo & a1 & a2 & s2 & pts & Hb' & Hi' & Hf' & Hlo & A1 & A2 & L & E).
  rewrite Hb in Hb'. apply ok_inj in Hb'. subst bb. rewrite Hi in Hi'. apply ok_inj in Hi'. subst inl.
  change (slope_or s slope) with (match dh_slope s with Some x => x | None => slope end) in Hf'.
  rewrite Hf in Hf'. apply ok_inj in Hf'. subst f. subst cv. cbn [cv_hours cv_capacity cv_storage] in *.
  destruct (curve_loop_points _ _ _ _ _ _ _ L) as (P1 & P2 & P3).
  destruct (arange_desc _ _ _ _ Hst A1) as (_ & I1 & _).
  destruct (arange_desc _ _ _ _ Hst A2) as (_ & I2 & _).
  assert (NE : bd_peak b1 <> []) by (unfold min_run_hr in Hlo; destruct (bd_peak b1); [discriminate|discriminate]).
  assert (LO : 0 < lo).
  { unfold min_run_hr in Hlo. destruct (bd_peak b1) as [|x r]; [discriminate|].
    apply bind_ok in Hlo. destruct Hlo as (y & Y1 & Y). apply qdiv_inv in Y1. destruct Y1 as [Z ->]. apply ok_inj in Y. subst lo.
    assert (M0 : 0 <= qmaxl x r).
    { destruct (qmaxl_in x r) as [->|Q0]; apply Sh; [left; reflexivity|right; exact Q0]. }
    apply Qmult_lt_0_compat; [|reflexivity]. apply qdiv_pos; [reflexivity|]. lra. }
  assert (HH : forall h c st, In (h, c, st) pts -> 0 < h /\ h <= 24).
  { intros h c st X. assert (In h (map (fun p => fst (fst p)) pts)) by (apply in_map_iff; exists (h, c, st); auto).
    rewrite P1 in H0. assert (Y : In h (a1 ++ a2)).
    { rewrite <- (firstn_skipn (length pts) (a1 ++ a2)). apply in_or_app. left. exact H0. }
    apply in_app_or in Y. destruct Y as [Y|Y].
    - destruct (I1 _ Y). split; lra.
    - destruct (I2 _ Y). split; lra. }
  assert (PT : forall h c st, In (h, c, st) pts ->
     c == bd_daily b1 / h * rho_cp * (dh_supply s - inlet) / dh_defrost s / 1000 /\
     st == running_of_diff (hourly_diff (bd_daily b1 / h) (bd_daily b1) (bd_peak b1)) / factor /\ ~ factor == 0).
  { intros h c st X. pose proof (P3 _ _ _ X) as CP. apply curve_point_inv in CP. destruct CP as (rv & C1 & C2 & _ & C4).
    destruct (HH _ _ _ X) as [H0 _].
    destruct (capacity_inv _ _ _ _ Hi C1) as (_ & _ & C). cbn [dh_set_run dh_run dh_supply dh_defrost] in C.
    split; [exact C|]. cbn [k_running base_klass] in C2. unfold base_running in C2. cbn [dh_set_run dh_run] in C2.
    rewrite qdiv_ok in C2 by lra. cbn [bind] in C2. apply ok_inj in C2. subst rv.
    apply qdiv_inv in C4. destruct C4 as [Z ->]. split; [reflexivity|exact Z]. }
  split; [|split].
  - apply (sd_to_si (fun p => fst (fst p))); [|exact SD].
    intros [[h1 c1] v1] [[h2 c2] v2] X1 X2 Lt. cbn [fst snd] in *.
    destruct (PT _ _ _ X1) as [-> _]. destruct (PT _ _ _ X2) as [-> _].
    destruct (HH _ _ _ X1). destruct (HH _ _ _ X2).
    assert (G : bd_daily b1 / h1 < bd_daily b1 / h2).
    { apply qdiv_lt_iff; [assumption|]. setoid_replace (bd_daily b1 / h2 * h1) with (bd_daily b1 * h1 / h2) by (field; lra).
      apply qlt_div_iff; [assumption|]. rewrite !(Qmult_comm (bd_daily b1)). apply Qmult_lt_compat_r; assumption. }
    unfold Qdiv at 1 2 4 5. apply Qmult_lt_compat_r; [reflexivity|].
    apply Qmult_lt_compat_r; [apply Qinv_lt_0_compat; exact Hd|].
    apply Qmult_lt_compat_r; [lra|]. apply Qmult_lt_compat_r; [reflexivity|exact G].
  - apply (sd_to_ni (fun p => fst (fst p))); [|exact SD].
    intros [[h1 c1] v1] [[h2 c2] v2] X1 X2 Lt. cbn [fst snd] in *.
    destruct (PT _ _ _ X1) as (_ & -> & Z). destruct (PT _ _ _ X2) as (_ & -> & _).
    destruct (HH _ _ _ X1) as [h1p h1u]. destruct (HH _ _ _ X2) as [h2p h2u].
    assert (FP : 0 < factor) by (destruct (Qlt_le_dec 0 factor) as [P|P]; [exact P|exfalso; apply Z; lra]).
    unfold Qdiv at 1 3. apply Qmult_le_compat_r; [|apply Qinv_le_0_compat; exact F0].
    apply running_antitone; [exact NE| |].
    + setoid_replace (bd_daily b1 / h1 * qz (Z.of_nat (length (bd_peak b1)))) with (bd_daily b1 * qz (Z.of_nat (length (bd_peak b1))) / h1) by (field; lra).
      apply qle_div_iff; [exact h1p|].
      assert (Q0 : 0 <= qsum (bd_peak b1)) by (apply qsum_nonneg; exact Sh).
      assert (h1 * qsum (bd_peak b1) <= 24 * qsum (bd_peak b1)) by (apply Qmult_le_compat_r; assumption).
      assert (bd_daily b1 * (h1 * qsum (bd_peak b1)) <= bd_daily b1 * qz (Z.of_nat (length (bd_peak b1)))).
      { rewrite !(Qmult_comm (bd_daily b1)). apply Qmult_le_compat_r; lra. }
      lra.
    + apply qdiv_le_iff; [assumption|]. setoid_replace (bd_daily b1 / h2 * h1) with (bd_daily b1 * h1 / h2) by (field; lra).
      apply qle_div_iff; [assumption|]. rewrite !(Qmult_comm (bd_daily b1)). apply Qmult_le_compat_r; lra.
  - intros h X. apply in_map_iff in X. destruct X as ([[h' c] v] & E & X). cbn in E. subst h'. apply (HH _ _ _ X).
Qed.
Print Assumptions C41_trade_off.

Example C41_case : exists cv inlet factor,
  sizing_curve base_klass ex_lib ex_dhw ex_building ex_map 2 4 = (ex_dhw, ex_building, Ok cv) /\
  length (cv_hours cv) = 4%nat /\ cv_rec cv = 2%Z /\ nth 2 (cv_hours cv) 0 == 16 /\
  design_inlet ex_building = Ok inlet /\ inlet < 120 /\ strat_factor ex_dhw ex_map 2 inlet = Ok factor /\ 0 <= factor /\
  24 * qsum (bd_peak ex_building) <= qz (Z.of_nat (length (bd_peak ex_building))).
Proof.
  destruct (sizing_curve base_klass ex_lib ex_dhw ex_building ex_map 2 4) as [[s b] o] eqn:E.
  destruct (C40_curve_restores base_klass ex_lib ex_dhw ex_building ex_map 2 4 s b o) as [-> ->]; [discriminate|exact E|].
  vm_compute in E. inversion E; subst. do 3 eexists. split; [reflexivity|]. repeat split; vm_compute; try reflexivity; discriminate.
Qed.

(** ** C42 Load-shift percentile curve *)

(** The inverse cumulative distribution is increasing on (0, 1). *)
Definition increasing_icdf (icdf : Q -> Q) : Prop :=
  forall p q, 0 < p -> p <= q -> q < 1 -> icdf p <= icdf q.

Theorem C42_fraction_monotone : forall icdf p q fp fq,
  increasing_icdf icdf -> ls_fract icdf p = Ok fp -> ls_fract icdf q = Ok fq -> p <= q -> fp <= fq /\ fq <= 1.
Proof.
  intros icdf p q fp fq M Hp Hq L. unfold ls_fract in *.
  destruct (Qle_bool 1 q) eqn:A; destruct (Qle_bool 1 p) eqn:B; qbool; try (exfalso; lra).
  - apply ok_inj in Hp, Hq. subst. lra.
  - apply ok_inj in Hq. subst fq. destruct (Qle_bool p 0); [discriminate|]. apply ok_inj in Hp. subst fp.
    split; [apply qmin_r|lra].
  - destruct (Qle_bool p 0) eqn:C; [discriminate|]. destruct (Qle_bool q 0) eqn:D; [discriminate|]. qbool.
    apply ok_inj in Hp, Hq. subst. split; [|apply qmin_r].
    pose proof (M p q C L A). destruct (qmin_spec (icdf p) 1) as [[X1 X2]|[X1 X2]]; destruct (qmin_spec (icdf q) 1) as [[Y1 Y2]|[Y1 Y2]];
      rewrite X2, Y2; lra.
Qed.
Print Assumptions C42_fraction_monotone.

(** A percentile at or below 0 is rejected, every other one has a fraction. *)
Theorem C42_fraction_defined : forall icdf p,
  (p <= 0 -> ls_fract icdf p = Err ValueError) /\ (0 < p -> exists f, ls_fract icdf p = Ok f) /\
  (1 <= p -> ls_fract icdf p = Ok 1).
Proof.
  intros icdf p. unfold ls_fract. destruct (Qle_bool 1 p) eqn:A; destruct (Qle_bool p 0) eqn:B; qbool;
    repeat split; intros; try lra; try reflexivity; eexists; reflexivity.
Qed.
Print Assumptions C42_fraction_defined.

Lemma ls_curve_inv K lib icdf s b sched m slope p s' b' cv :
  ls_sizing_curve K lib icdf s b sched m slope p = (s', b', Ok cv) ->
  exists d b1 inlet cap_n rv f stor_n pts, m = Some d /\ dict_get d "shed" <> None /\
    (if bd_is_annual b then bd_set_daily lib b else Ok b) = Ok b1 /\
    design_inlet b1 = Ok inlet /\
    let s1 := dh_set_run s (qmin (dh_run s) (non_shed_hours sched)) in
    k_capacity K s1 b1 = Ok cap_n /\ k_running K s1 b1 cap_n = Ok rv /\
    strat_factor s1 (Some d) (slope_or s slope) inlet = Ok f /\ storage_volume rv f = Ok stor_n /\
    mapM (ls_point K icdf s1 b1 sched d (slope_or s slope) inlet cap_n stor_n) ls_percents = Ok pts /\
    cv = mkCurve ls_percents (map fst pts) (map snd pts) (ls_rec_index p).
Proof.
  unfold ls_sizing_curve. destruct m as [d|]; [|discriminate].
  destruct (dict_has d "shed") eqn:DH; cbn [negb]; [|discriminate].
  destruct (if bd_is_annual b then bd_set_daily lib b else Ok b) as [b1|e] eqn:E; [|discriminate].
  cbv zeta. set (s1 := dh_set_run s (qmin (dh_run s) (non_shed_hours sched))).
  intro H. assert (O : ls_curve_body K icdf s1 b1 sched d (slope_or s slope) p = Ok cv).
  { unfold restore_annual in H. destruct (bd_is_annual b); [destruct (bd_set_annual lib b1)|]; inversion H; reflexivity. }
  clear H. unfold ls_curve_body in O.
  apply bind_ok in O. destruct O as (inlet & O1 & O). apply bind_ok in O. destruct O as (c & O2 & O).
  apply bind_ok in O. destruct O as (rv & O3 & O). apply bind_ok in O. destruct O as (f & O4 & O).
  apply bind_ok in O. destruct O as (st & O5 & O). apply bind_ok in O. destruct O as (pts & O6 & O).
  apply ok_inj in O. exists d, b1, inlet, c, rv, f, st, pts.
  split; [reflexivity|]. split; [unfold dict_has in DH; destruct (dict_get d "shed"); [discriminate|discriminate DH]|].
  cbv zeta. fold s1. repeat (split; [first [assumption | reflexivity]|]). symmetry. exact O.
Qed.

(** Percentiles 0.25 to 1.00 in steps of 0.01, series of equal length, the recommended index valid and
    pointing at the requested percentile when it is one of them, else at the nearest end. *)
Theorem C42_curve_well_formed : forall K lib icdf s b sched m slope p s' b' cv,
  ls_sizing_curve K lib icdf s b sched m slope p = (s', b', Ok cv) ->
  length (cv_hours cv) = 76%nat /\ length (cv_capacity cv) = 76%nat /\ length (cv_storage cv) = 76%nat /\
  (forall i, (i < 76)%nat -> nth i (cv_hours cv) 0 == (25 + qz (Z.of_nat i)) / 100) /\
  (0 <= cv_rec cv <= 75)%Z /\
  ((1 # 4) <= p <= 1 -> Qabs (nth (Z.to_nat (cv_rec cv)) (cv_hours cv) 0 - p) <= 1 # 200) /\
  (p <= 1 # 4 -> cv_rec cv = 0%Z) /\ (1 <= p -> cv_rec cv = 75%Z).
Proof.
  intros K lib icdf s b sched m slope p s' b' cv H.
  destruct (ls_curve_inv _ _ _ _ _ _ _ _ _ _ _ _ H) as (d & b1 & inlet & c & rv & f & st & pts & _ & _ & _ & _ & _ & _ & _ & _ & M & ->).
  cbn [cv_hours cv_capacity cv_storage cv_rec]. rewrite !map_length. rewrite (mapM_length _ _ _ M).
  assert (LP : length ls_percents = 76%nat) by reflexivity.
  split; [exact LP|]. split; [exact LP|]. split; [exact LP|].
  assert (NP : forall i, (i < 76)%nat -> nth i ls_percents 0 == (25 + qz (Z.of_nat i)) / 100).
  { intros i Hi. unfold ls_percents. rewrite (nth_indep _ 0 ((fun i => qz (Z.of_nat i) / 100) 0%nat)) by (rewrite map_length, seq_length; exact Hi).
    rewrite (map_nth (fun i => qz (Z.of_nat i) / 100)). rewrite seq_nth by exact Hi.
    rewrite Nat2Z.inj_add. unfold qz. rewrite inject_Z_plus. reflexivity. }
  split; [exact NP|].
  assert (RB : (0 <= ls_rec_index p <= 75)%Z) by (unfold ls_rec_index; rewrite LP; lia).
  split; [exact RB|].
  assert (C1 : p <= 1 # 4 -> ls_rec_index p = 0%Z).
  { intro L. unfold ls_rec_index. rewrite LP.
    assert (E : qmax (1 # 4) (qmin 1 p) == 1 # 4).
    { assert (qmin 1 p <= p) by apply qmin_r. destruct (qmax_spec (1 # 4) (qmin 1 p)) as [[X Y]|[X Y]]; rewrite Y; lra. }
    rewrite (py_round_int 0); [reflexivity|]. rewrite E. reflexivity. }
  assert (C2 : 1 <= p -> ls_rec_index p = 75%Z).
  { intro L. unfold ls_rec_index. rewrite LP.
    assert (E : qmax (1 # 4) (qmin 1 p) == 1).
    { assert (E1 : qmin 1 p == 1) by (destruct (qmin_spec 1 p) as [[X Y]|[X Y]]; rewrite Y; lra).
      destruct (qmax_spec (1 # 4) (qmin 1 p)) as [[X Y]|[X Y]]; rewrite Y; lra. }
    rewrite (py_round_int 75); [reflexivity|]. rewrite E. reflexivity. }
  split; [|split; assumption].
  intros [L1 L2].
  assert (E : qmax (1 # 4) (qmin 1 p) == p).
  { assert (E1 : qmin 1 p == p) by (destruct (qmin_spec 1 p) as [[X Y]|[X Y]]; rewrite Y; lra).
    destruct (qmax_spec (1 # 4) (qmin 1 p)) as [[X Y]|[X Y]]; rewrite Y; lra. }
  set (x := (qmax (1 # 4) (qmin 1 p) - (1 # 4)) * 100).
  assert (X : x == (p - (1 # 4)) * 100) by (unfold x; rewrite E; reflexivity).
  destruct (py_round_bounds x) as [B1 B2].
  assert (R0 : (0 <= py_round x <= 75)%Z).
  { split.
    - destruct (Z.le_gt_cases 0 (py_round x)) as [Q0|Q0]; [exact Q0|exfalso].
      assert (qz (py_round x) <= -1) by (unfold qz; change (-1) with (inject_Z (-1)); rewrite <- Zle_Qle; lia). lra.
    - destruct (Z.le_gt_cases (py_round x) 75) as [Q0|Q0]; [exact Q0|exfalso].
      assert (76 <= qz (py_round x)) by (unfold qz; change 76 with (inject_Z 76); rewrite <- Zle_Qle; lia). lra. }
  assert (RI : ls_rec_index p = py_round x).
  { unfold ls_rec_index. rewrite LP. fold x. lia. }
  rewrite RI, NP by lia. rewrite Z2Nat.id by lia.
  set (n := qz (py_round x)) in *.
  setoid_replace ((25 + n) / 100) with ((25 + n) * (1 # 100)) by reflexivity.
  apply Qabs_Qle_condition. split; lra.
Qed.
Print Assumptions C42_curve_well_formed.

(** Every point of the curve is what size returns for the load-shift fraction of its percentile. *)
Theorem C42_points_agree_with_size : forall K lib icdf s b sched m slope p s' b' cv i q c v fr s1 b1 out,
  ls_sizing_curve K lib icdf s b sched m slope p = (s', b', Ok cv) -> sched <> [] ->
  nth_error (cv_hours cv) i = Some q -> nth_error (cv_capacity cv) i = Some c -> nth_error (cv_storage cv) i = Some v ->
  ls_fract icdf q = Ok fr ->
  dhw_size K lib s b (Some sched) m (match dh_slope s with Some x => x | None => slope end) fr = (s1, b1, out) ->
  dh_min_cap s1 = Some c /\ dh_min_stor s1 = Some v.
Proof.
  intros K lib icdf s b sched m slope p s' b' cv i q c v fr s1 b1 out H Ns Eq Ec Ev Ef SZ.
  destruct (ls_curve_inv _ _ _ _ _ _ _ _ _ _ _ _ H) as (d & bb & inlet & cn & rv & f & st & pts & -> & Nd & Hb & Hi & C1 & C2 & C3 & C4 & M & ->).
  cbn [cv_hours cv_capacity cv_storage] in *.
  destruct (nth_error pts i) as [[c' v']|] eqn:N; [|rewrite nth_error_map, N in Ec; discriminate].
  rewrite nth_error_map, N in Ec, Ev. cbn in Ec, Ev. injection Ec as <-. injection Ev as <-.
  pose proof (mapM_nth _ _ _ _ _ M Eq) as P. destruct P as (y & P2 & P1). rewrite N in P2. injection P2 as <-.
  unfold ls_point in P1. rewrite Ef in P1. cbn [bind] in P1.
  apply bind_ok in P1. destruct P1 as (lcap & Q1 & P1). apply bind_ok in P1. destruct P1 as (g & Q2 & P1).
  apply bind_ok in P1. destruct P1 as (lrv & Q3 & P1). apply bind_ok in P1. destruct P1 as (lst & Q4 & P1).
  apply ok_inj in P1. injection P1 as <- <-.
  assert (LA : ls_active (Some sched) (Some d) = true).
  { unfold ls_active, is_load_shifting, dict_has. destruct sched; [congruence|]. destruct (dict_get d "shed"); [reflexivity|congruence]. }
  unfold dhw_size in SZ. rewrite Hb in SZ. unfold cap_run in SZ. rewrite LA in SZ.
  unfold size_try in SZ.
  assert (V : size_values K (dh_set_run s (qmin (dh_run s) (non_shed_hours sched))) bb (Some sched) (Some d) (slope_or s slope) fr = Ok (qmax cn lcap, qmax st lst)).
  { unfold size_values. rewrite Hi. cbn [bind]. rewrite C1. cbn [bind]. rewrite C2. cbn [bind]. rewrite C3. cbn [bind]. rewrite C4. cbn [bind].
    rewrite LA. rewrite Q1. cbn [bind]. rewrite Q2. cbn [bind]. rewrite Q3. cbn [bind]. rewrite Q4. reflexivity. }
  unfold slope_or in V. rewrite V in SZ.
  destruct (match map_of (Some d) with [] => Ok [] | x :: l => _ end) as [w|e].
  - destruct (bd_is_annual b); [destruct (bd_set_annual lib bb)|]; inversion SZ; split; reflexivity.
  - inversion SZ; split; reflexivity.
Qed.
Print Assumptions C42_points_agree_with_size.

Lemma gen_ls_mono s sched d b slope f1 f2 g1 g2 :
  base_gen_ls s sched d b slope f1 = Ok g1 -> base_gen_ls s sched d b slope f2 = Ok g2 -> f1 <= f2 ->
  0 <= bd_daily b -> (forall x, In x (bd_avg b) -> 0 <= x) ->
  (forall nc np lp, dict_get d "normal" = Some nc -> strat_pct s (ct_on_sensor nc) (ct_on_trigger nc) slope = Ok np ->
     strat_pct s (ct_on_sensor (ctl_load_up d nc)) (ct_on_trigger (ctl_load_up d nc)) slope = Ok lp -> np <= lp) ->
  g1 <= g2.
Proof.
  intros H1 H2 F D0 Sh Hp. unfold base_gen_ls in *.
  apply bind_ok in H1. destruct H1 as (n1 & N1 & H1). rewrite N1 in H2. cbn [bind] in H2.
  apply bind_ok in H1. destruct H1 as ([bl lu] & B1 & H1). rewrite B1 in H2. cbn [bind snd] in H1, H2.
  destruct (lu =? 0)%Z eqn:L; [apply ok_inj in H1, H2; subst; lra|].
  apply bind_ok in H1. destruct H1 as ([v1 c1] & P1 & H1). apply bind_ok in H2. destruct H2 as ([v2 c2] & P2 & H2).
  apply bind_ok in H1. destruct H1 as (nc & Q1 & H1). rewrite Q1 in H2. cbn [bind] in H2.
  apply bind_ok in H1. destruct H1 as (sc & Q2 & H1). rewrite Q2 in H2. cbn [bind] in H2.
  apply bind_ok in H1. destruct H1 as (np & Q3 & H1). rewrite Q3 in H2. cbn [bind] in H2.
  apply bind_ok in H1. destruct H1 as (lp & Q4 & H1). rewrite Q4 in H2. cbn [bind] in H2.
  apply bind_ok in H1. destruct H1 as (sp & Q5 & H1). rewrite Q5 in H2. cbn [bind] in H2.
  destruct (Qle_bool (lp - sp) 0) eqn:B; qbool; [apply ok_inj in H1, H2; subst; lra|].
  apply ok_inj in H1, H2.
  destruct (prelim_inv _ _ _ _ _ P1) as (a & k & u & E1 & A1 & U1 & LL & V1 & C1).
  destruct (prelim_inv _ _ _ _ _ P2) as (a' & k' & u' & E2 & A2 & U2 & _ & V2 & C2).
  destruct (first_shed_run_unique _ _ _ _ _ A1 A2) as [<- <-]. pose proof (load_up_before_unique _ _ _ _ U1 U2) as <-.
  rewrite B1 in E1. apply ok_inj in E1. inversion E1; subst bl lu. apply Z.eqb_neq in L.
  assert (PL : np <= lp).
  { apply (Hp nc); [|exact Q3|exact Q4]. unfold ctl in Q1. destruct (dict_get d "normal"); [apply ok_inj in Q1; congruence|discriminate]. }
  set (dem := demand_of_hours (bd_daily b) (bd_avg b) a k) in *.
  assert (DM : 0 <= dem).
  { unfold dem, demand_of_hours. apply qsum_nonneg. intros x X. apply in_map_iff in X. destruct X as (i & <- & Hi). apply in_seq in Hi.
    apply Qmult_le_0_compat; [exact D0|]. apply Sh. apply nth_In. lia. }
  assert (VV : v1 <= v2) by (rewrite V1, V2; apply Qmult_le_compat_r; assumption).
  assert (U : 0 < qz (Z.of_nat u)) by (change 0 with (inject_Z 0); unfold qz; rewrite <- Zlt_Qlt; lia).
  assert (XX : (v1 * (lp - np) / (lp - sp) + c1) / qz (Z.of_nat u) <= (v2 * (lp - np) / (lp - sp) + c2) / qz (Z.of_nat u)).
  { unfold Qdiv at 1 3. apply Qmult_le_compat_r; [|apply Qinv_le_0_compat; lra].
    assert (v1 * (lp - np) / (lp - sp) <= v2 * (lp - np) / (lp - sp)).
    { unfold Qdiv. apply Qmult_le_compat_r; [|apply Qinv_le_0_compat; lra]. apply Qmult_le_compat_r; lra. }
    rewrite C1, C2. lra. }
  rewrite <- H1, <- H2.
  set (x := (v1 * (lp - np) / (lp - sp) + c1) / qz (Z.of_nat u)) in *.
  set (y := (v2 * (lp - np) / (lp - sp) + c2) / qz (Z.of_nat u)) in *. clearbody x y.
  apply qmax_lub; [apply qmax_l|]. apply Qle_trans with y; [exact XX|apply qmax_r].
Qed.

Lemma nd_nth (l : list Q) : (forall i x y, nth_error l i = Some x -> nth_error l (S i) = Some y -> x <= y) -> non_decreasing l.
Proof.
  induction l as [|a l IH]; intro H; [exact I|]. destruct l as [|b l]; [exact I|].
  split; [apply (H 0%nat); reflexivity|]. apply IH. intros i x y X Y. apply (H (S i)); assumption.
Qed.

(** Capacity of the base system never decreases with the percentile, when load-up heats at least as much
    of the tank as normal operation. *)
Theorem C42_capacity_never_decreases : forall lib icdf s b b1 sched d slope p s' b' cv inlet,
  ls_sizing_curve base_klass lib icdf s b sched (Some d) slope p = (s', b', Ok cv) ->
  (if bd_is_annual b then bd_set_daily lib b else Ok b) = Ok b1 ->
  increasing_icdf icdf -> design_inlet b1 = Ok inlet -> inlet <= dh_supply s -> 0 < dh_defrost s ->
  0 <= bd_daily b1 -> (forall x, In x (bd_avg b1) -> 0 <= x) ->
  (forall nc np lp, dict_get d "normal" = Some nc ->
     strat_pct s (ct_on_sensor nc) (ct_on_trigger nc) (match dh_slope s with Some x => x | None => slope end) = Ok np ->
     strat_pct s (ct_on_sensor (ctl_load_up d nc)) (ct_on_trigger (ctl_load_up d nc))
       (match dh_slope s with Some x => x | None => slope end) = Ok lp -> np <= lp) ->
  non_decreasing (cv_capacity cv).
Proof.
  intros lib icdf s b b1 sched d slope p s' b' cv inlet H Hb Mi Hi Hs Hd D0 Sh Hp.
  destruct (ls_curve_inv _ _ _ _ _ _ _ _ _ _ _ _ H) as (d' & bb & inl & cn & rv & f & st & pts & Ed & Nd & Hb' & Hi' & C1 & C2 & C3 & C4 & M & ->).
  injection Ed as <-. rewrite Hb in Hb'. apply ok_inj in Hb'. subst bb. rewrite Hi in Hi'. apply ok_inj in Hi'. subst inl.
  cbn [cv_capacity]. apply nd_nth. intros i x y X Y. rewrite nth_error_map in X, Y.
  destruct (nth_error pts i) as [[c1 v1]|] eqn:N1; [|discriminate]. destruct (nth_error pts (S i)) as [[c2 v2]|] eqn:N2; [|discriminate].
  cbn in X, Y. injection X as <-. injection Y as <-.
  assert (LP : length pts = 76%nat) by (rewrite (mapM_length _ _ _ M); reflexivity).
  assert (I1 : (S i < 76)%nat) by (rewrite <- LP; apply nth_error_Some; congruence).
  assert (NE : forall j, (j < 76)%nat -> nth_error ls_percents j = Some (qz (Z.of_nat (25 + j)) / 100)).
  { intros j Hj. unfold ls_percents. rewrite nth_error_map.
    rewrite (nth_error_nth' (seq 25 76) 0%nat) by (rewrite seq_length; exact Hj). rewrite seq_nth by exact Hj. reflexivity. }
  destruct (mapM_nth _ _ _ _ _ M (NE i ltac:(lia))) as (z1 & Z1 & P1). rewrite N1 in Z1. injection Z1 as <-.
  destruct (mapM_nth _ _ _ _ _ M (NE (S i) I1)) as (z2 & Z2 & P2). rewrite N2 in Z2. injection Z2 as <-.
  unfold ls_point in P1, P2.
  apply bind_ok in P1. destruct P1 as (fr1 & F1 & P1). apply bind_ok in P2. destruct P2 as (fr2 & F2 & P2).
  apply bind_ok in P1. destruct P1 as (l1 & L1 & P1). apply bind_ok in P2. destruct P2 as (l2 & L2 & P2).
  apply bind_ok in P1. destruct P1 as (g1 & G1 & P1). apply bind_ok in P2. destruct P2 as (g2 & G2 & P2).
  apply bind_ok in P1. destruct P1 as (r1 & _ & P1). apply bind_ok in P2. destruct P2 as (r2 & _ & P2).
  apply bind_ok in P1. destruct P1 as (t1 & _ & P1). apply bind_ok in P2. destruct P2 as (t2 & _ & P2).
  apply ok_inj in P1, P2. injection P1 as <- _. injection P2 as <- _.
  assert (FF : fr1 <= fr2).
  { apply (C42_fraction_monotone icdf _ _ _ _ Mi F1 F2).
    unfold Qdiv. apply Qmult_le_compat_r; [unfold qz; rewrite <- Zle_Qle; lia|discriminate]. }
  cbn [k_gen_ls k_capacity_ls base_klass] in *.
  assert (GG : g1 <= g2).
  { apply (gen_ls_mono _ _ _ _ _ _ _ _ _ G1 G2 FF D0 Sh). exact Hp. }
  unfold base_capacity_ls, capacity_of_gen in L1, L2. rewrite Hi in L1, L2. cbn [bind] in L1, L2.
  rewrite G1 in L1. rewrite G2 in L2. cbn [bind dh_set_run dh_supply dh_defrost] in L1, L2.
  rewrite qdiv_ok in L1, L2 by lra. cbn [bind] in L1, L2. apply ok_inj in L1, L2.
  assert (LL : l1 <= l2).
  { rewrite <- L1, <- L2. unfold Qdiv. apply Qmult_le_compat_r; [|discriminate].
    apply Qmult_le_compat_r; [|apply Qinv_le_0_compat; lra]. apply Qmult_le_compat_r; [|lra].
    apply Qmult_le_compat_r; [exact GG|discriminate]. }
  apply qmax_lub; [apply qmax_l|]. apply Qle_trans with l2; [exact LL|apply qmax_r].
Qed.
Print Assumptions C42_capacity_never_decreases.

(** A linear stand-in for the inverse distribution; the map and schedule of C39_case. *)
Definition rec_of (r : dhw * building * res curve) : option Z :=
  match r with (_, _, Ok cv) => Some (cv_rec cv) | _ => None end.
Example C42_case : exists cv,
  ls_sizing_curve base_klass ex_lib (fun q => q) ex_dhw ex_building ex_ls_sched (Some ex_lu_map) 2 (95 # 100)
    = (ex_dhw, ex_building, Ok cv) /\ cv_rec cv = 70%Z /\ increasing_icdf (fun q => q).
Proof.
  assert (T : rec_of (ls_sizing_curve base_klass ex_lib (fun q => q) ex_dhw ex_building ex_ls_sched (Some ex_lu_map) 2 (95 # 100)) = Some 70%Z)
    by (vm_compute; reflexivity).
  destruct (ls_sizing_curve base_klass ex_lib (fun q => q) ex_dhw ex_building ex_ls_sched (Some ex_lu_map) 2 (95 # 100)) as [[s b] o] eqn:E.
  destruct (C40_ls_curve_restores base_klass ex_lib (fun q => q) ex_dhw ex_building ex_ls_sched (Some ex_lu_map) 2 (95 # 100) s b o) as [-> ->]; [discriminate|exact E|].
  destruct o as [cv|]; [|discriminate T]. exists cv. split; [reflexivity|].
  split; [injection T; auto|]. intros p q _ L _. exact L.
Qed.
