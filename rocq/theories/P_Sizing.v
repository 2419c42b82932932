(** C35-C39: sizing of the primary system. *)
From Verif Require Import Prelude M_StratifiedTank M_Building M_Heater M_Sizing S_Integral S_Sizing
  L_Integral L_Heater L_Building L_Sizing L_Sizing2 L_Sizing3 L_Sizing4.
Open Scope Q_scope.

Lemma no_ls_inactive sched m : no_load_shift sched m -> ls_active sched m = false.
Proof.
  intros [->|H]; [reflexivity|]. unfold ls_active, is_load_shifting, dict_has.
  destruct sched as [[|x l]|]; try reflexivity. destruct m as [d|]; [|reflexivity].
  rewrite (H d eq_refl). reflexivity.
Qed.

Lemma cap_run_inactive s sched m : ls_active sched m = false -> cap_run s sched m = s.
Proof. intro H. unfold cap_run. destruct sched; [rewrite H|]; reflexivity. Qed.

(** What a successful sizing without load shifting computed. *)
Lemma normal_size_inv K lib s b b1 sched m slope fract s' b' w inlet :
  no_load_shift sched m ->
  (if bd_is_annual b then bd_set_daily lib b else Ok b) = Ok b1 -> design_inlet b1 = Ok inlet ->
  dhw_size K lib s b sched m slope fract = (s', b', Ok w) ->
  exists cap rv f stor, dh_min_cap s' = Some cap /\ dh_min_stor s' = Some stor /\
    k_capacity K s b1 = Ok cap /\ k_running K s b1 cap = Ok rv /\
    strat_factor s m slope inlet = Ok f /\ storage_volume rv f = Ok stor.
Proof.
  intros N Hb Hi H. apply no_ls_inactive in N.
  destruct (size_ok_inv _ _ _ _ _ _ _ _ _ _ _ H) as (b1' & cap & stor & E1 & E2 & ->).
  rewrite Hb in E1. apply ok_inj in E1. subst b1'. rewrite cap_run_inactive in E2 by exact N.
  destruct (size_values_inv _ _ _ _ _ _ _ _ _ E2) as (i & c0 & rv & f & st & A & B & C & D & E & [(F & -> & ->)|(sc & d & X)]).
  - rewrite Hi in A. apply ok_inj in A. subst i. exists c0, rv, f, st. repeat split; auto.
  - destruct X as (? & ? & ? & ? & _ & _ & X & _). congruence.
Qed.

(** ** C35 Sized storage never runs out *)

(** The sized tank, at the factor of usable water per gallon, refilled at the daily demand spread over
    the run hours, never runs dry: from any hour it is full, for any number of hours. *)
Theorem C35_never_runs_out : forall lib s b b1 sched m slope fract s' b' w inlet factor,
  (if bd_is_annual b then bd_set_daily lib b else Ok b) = Ok b1 ->
  no_load_shift sched m ->
  dhw_size base_klass lib s b sched m slope fract = (s', b', Ok w) ->
  design_inlet b1 = Ok inlet -> strat_factor s m slope inlet = Ok factor ->
  bd_peak b1 <> [] -> 0 <= bd_daily b1 -> 0 < dh_run s ->
  dh_run s * qsum (bd_peak b1) <= qz (Z.of_nat (length (bd_peak b1))) ->
  exists V, dh_min_stor s' = Some V /\
    forall start n,
      0 <= level (V * factor) (steady (bd_daily b1 / dh_run s)) (demand_at (bd_daily b1) (bd_peak b1)) start n.
Proof.
  intros lib s b b1 sched m slope fract s' b' w inlet factor Hb NL H Hi Hf Np Hd Hr Hq.
  destruct (normal_size_inv _ _ _ _ _ _ _ _ _ _ _ _ _ NL Hb Hi H) as (cap & rv & f & stor & _ & S2 & _ & R & F & T).
  rewrite Hf in F. apply ok_inj in F. subst f.
  exists stor. split; [exact S2|]. intros start n.
  apply qdiv_inv in T. destruct T as [Z ->].
  cbn [k_running base_klass] in R. unfold base_running in R. rewrite qdiv_ok in R by lra. cbn [bind] in R.
  apply ok_inj in R. subst rv.
  set (g := bd_daily b1 / dh_run s) in *.
  assert (E : forall t, steady g t - demand_at (bd_daily b1) (bd_peak b1) t == steady g t - demand_at (bd_daily b1) (bd_peak b1) t)
    by reflexivity.
  rewrite (level_ext _ _ _ _ _ _ start n (qdiv_mul _ factor Z) E).
  apply c35_never_negative; [exact Np|].
  assert (G : g * dh_run s == bd_daily b1) by (apply qdiv_mul; lra).
  assert (G0 : 0 <= g) by (apply qdiv_nonneg; assumption).
  assert (X : g * (dh_run s * qsum (bd_peak b1)) <= g * qz (Z.of_nat (length (bd_peak b1)))).
  { rewrite !(Qmult_comm g). apply Qmult_le_compat_r; assumption. }
  rewrite <- G. lra.
Qed.
Print Assumptions C35_never_runs_out.

(** A concrete building: 1000 gallons a day, drawn in two blocks of four hours; design inlet 50 F. *)
Definition ex_shape : list Q :=
  repeat 0 6 ++ repeat (1 # 8) 4 ++ repeat 0 7 ++ repeat (1 # 8) 4 ++ repeat 0 3.
Definition ex_building : building :=
  mkBuilding (Some (cz_from_design (Some 30) (Some 50))) 1000 ex_shape ex_shape "custom".
Definition ex_lib : library := mkLibrary (fun _ => None) (fun _ => Err KeyError) (fun _ => 0).
Definition ex_controls : controls := mkControls (1 # 5) 110 (1 # 10) 130 150.
Definition ex_map : option ctl_map := Some [("normal"%string, ex_controls)].
Definition ex_dhw : dhw := mkDhw 120 150 16 1 None None None.
Definition stor_of (r : dhw * building * res (list (string * warning))) : option Q := dh_min_stor (fst (fst r)).
Definition cap_of (r : dhw * building * res (list (string * warning))) : option Q := dh_min_cap (fst (fst r)).

Example C35_case : exists s' w V factor,
  dhw_size base_klass ex_lib ex_dhw ex_building None ex_map 2 1 = (s', ex_building, Ok w) /\
  dh_min_stor s' = Some V /\ strat_factor ex_dhw ex_map 2 50 = Ok factor /\ V * factor == 250 /\ 240 < V /\
  bd_is_annual ex_building = false /\ design_inlet ex_building = Ok 50 /\
  dh_run ex_dhw * qsum (bd_peak ex_building) <= qz (Z.of_nat (length (bd_peak ex_building))) /\
  level (V * factor) (steady (1000 / 16)) (demand_at 1000 ex_shape) 6 4 == 0.
Proof.
  destruct (dhw_size base_klass ex_lib ex_dhw ex_building None ex_map 2 1) as [[s' b'] o] eqn:E.
  vm_compute in E. inversion E; subst. do 4 eexists. split; [reflexivity|]. split; [reflexivity|].
  split; [vm_compute; reflexivity|]. repeat split; vm_compute; try reflexivity; try discriminate.
Qed.

(** Beyond the hypothesis: a 24-hour run with a shape that sums to 1.0005, within the tolerance of the
    validation, has a deficit in every hour; no peak hour is found and the sized volume is 0. *)
Definition ex_over : list Q := repeat (2001 # 48000) 24.
Theorem C35_tolerance_refuted : exists s b s' w V,
  validate_load_shape (bd_peak b) = Ok tt /\ dh_run s = 24 /\ 0 < bd_daily b /\
  dhw_size base_klass ex_lib s b None ex_map 2 1 = (s', b, Ok w) /\
  dh_min_stor s' = Some V /\ V == 0 /\
  level V (steady (bd_daily b / dh_run s)) (demand_at (bd_daily b) (bd_peak b)) 0 1 < 0.
Proof.
  exists (mkDhw 120 150 24 1 None None None),
         (mkBuilding (Some (cz_from_design (Some 30) (Some 50))) 1000 ex_over ex_over "custom").
  destruct (dhw_size base_klass ex_lib (mkDhw 120 150 24 1 None None None) (mkBuilding (Some (cz_from_design (Some 30) (Some 50))) 1000 ex_over ex_over "custom") None ex_map 2 1) as [[s' b'] o] eqn:E.
  vm_compute in E. inversion E; subst. do 3 eexists.
  split; [vm_compute; reflexivity|]. split; [reflexivity|]. split; [reflexivity|].
  split; [reflexivity|]. split; [reflexivity|]. split; vm_compute; reflexivity.
Qed.
Print Assumptions C35_tolerance_refuted.

(** ** C36 Sized storage is minimal *)
Theorem C36_minimal : forall lib s b b1 sched m slope fract s' b' w inlet factor,
  (if bd_is_annual b then bd_set_daily lib b else Ok b) = Ok b1 ->
  no_load_shift sched m ->
  dhw_size base_klass lib s b sched m slope fract = (s', b', Ok w) ->
  design_inlet b1 = Ok inlet -> strat_factor s m slope inlet = Ok factor -> 0 <= factor ->
  bd_peak b1 <> [] -> 0 <= bd_daily b1 -> 0 < dh_run s ->
  dh_run s * qsum (bd_peak b1) <= qz (Z.of_nat (length (bd_peak b1))) ->
  exists V, dh_min_stor s' = Some V /\
    forall V', V' < V -> exists start n,
      (start < length (bd_peak b1))%nat /\ (n <= length (bd_peak b1))%nat /\
      level (V' * factor) (steady (bd_daily b1 / dh_run s)) (demand_at (bd_daily b1) (bd_peak b1)) start n < 0.
Proof.
  intros lib s b b1 sched m slope fract s' b' w inlet factor Hb NL H Hi Hf F0 Np Hd Hr Hq.
  destruct (normal_size_inv _ _ _ _ _ _ _ _ _ _ _ _ _ NL Hb Hi H) as (cap & rv & f & stor & _ & S2 & _ & R & F & T).
  rewrite Hf in F. apply ok_inj in F. subst f.
  exists stor. split; [exact S2|]. intros V' HV.
  apply qdiv_inv in T. destruct T as [Z ->].
  cbn [k_running base_klass] in R. unfold base_running in R. rewrite qdiv_ok in R by lra. cbn [bind] in R.
  apply ok_inj in R. subst rv.
  set (g := bd_daily b1 / dh_run s) in *.
  apply c36_minimal; [exact Np| |].
  - assert (G : g * dh_run s == bd_daily b1) by (apply qdiv_mul; lra).
    assert (G0 : 0 <= g) by (apply qdiv_nonneg; assumption).
    assert (X : g * (dh_run s * qsum (bd_peak b1)) <= g * qz (Z.of_nat (length (bd_peak b1)))).
    { rewrite !(Qmult_comm g). apply Qmult_le_compat_r; assumption. }
    rewrite <- G. lra.
  - apply qlt_div_iff in HV; [exact HV|]. destruct (Qlt_le_dec 0 factor) as [P|P]; [exact P|]. exfalso. apply Z. lra.
Qed.
Print Assumptions C36_minimal.

Example C36_case : exists s' w V factor,
  dhw_size base_klass ex_lib ex_dhw ex_building None ex_map 2 1 = (s', ex_building, Ok w) /\
  dh_min_stor s' = Some V /\ strat_factor ex_dhw ex_map 2 50 = Ok factor /\ 0 <= factor /\
  level ((V - 1) * factor) (steady (1000 / 16)) (demand_at 1000 ex_shape) 6 4 < 0.
Proof.
  destruct (dhw_size base_klass ex_lib ex_dhw ex_building None ex_map 2 1) as [[s' b'] o] eqn:E.
  vm_compute in E. inversion E; subst. do 4 eexists. split; [reflexivity|]. split; [reflexivity|].
  split; [vm_compute; reflexivity|]. split; vm_compute; try reflexivity; discriminate.
Qed.

(** ** C37 Sized capacity delivers the daily demand in the allowed run hours *)

(** kBtu per hour x 1000 x defrost share x run hours = Btu of the daily demand. *)
Theorem C37_capacity_balance : forall lib s b sched m slope fract s' b' w inlet,
  no_load_shift sched m ->
  dhw_size base_klass lib s b sched m slope fract = (s', b', Ok w) -> design_inlet b = Ok inlet ->
  exists c, dh_min_cap s' = Some c /\
    c * 1000 * dh_defrost s * dh_run s == bd_daily b * rho_cp * (dh_supply s - inlet).
Proof.
  intros lib s b sched m slope fract s' b' w inlet NL H Hi.
  destruct (size_ok_inv _ _ _ _ _ _ _ _ _ _ _ H) as (b1 & cap & stor & E1 & _ & _).
  pose proof (design_inlet_daily _ _ _ E1) as DI. destruct (set_daily_fields _ _ _ E1) as [_ BD].
  rewrite <- DI in Hi.
  destruct (normal_size_inv _ _ _ _ _ _ _ _ _ _ _ _ _ NL E1 Hi H) as (c & rv & f & st & S1 & _ & C & _).
  exists c. split; [exact S1|]. cbn [k_capacity base_klass] in C.
  destruct (capacity_inv _ _ _ _ Hi C) as (R & D & ->). rewrite <- BD. field. split; assumption.
Qed.
Print Assumptions C37_capacity_balance.

(** Return-to-primary systems add 24 hours of recirculation loss. *)
Theorem C37_capacity_balance_rtp : forall ret flow lib s b sched m slope fract s' b' w inlet,
  no_load_shift sched m ->
  dhw_size (sprtp_klass ret flow) lib s b sched m slope fract = (s', b', Ok w) -> design_inlet b = Ok inlet ->
  exists c, dh_min_cap s' = Some c /\
    c * 1000 * dh_defrost s * dh_run s ==
      bd_daily b * rho_cp * (dh_supply s - inlet) + 24 * (flow * 60) * rho_cp * (dh_supply s - ret).
Proof.
  intros ret flow lib s b sched m slope fract s' b' w inlet NL H Hi.
  destruct (size_ok_inv _ _ _ _ _ _ _ _ _ _ _ H) as (b1 & cap & stor & E1 & _ & _).
  pose proof (design_inlet_daily _ _ _ E1) as DI. destruct (set_daily_fields _ _ _ E1) as [_ BD].
  rewrite <- DI in Hi.
  destruct (normal_size_inv _ _ _ _ _ _ _ _ _ _ _ _ _ NL E1 Hi H) as (c & rv & f & st & S1 & _ & C & _).
  exists c. split; [exact S1|]. cbn [k_capacity sprtp_klass] in C. unfold rtp_capacity in C.
  apply bind_ok in C. destruct C as (c0 & C0 & C). apply bind_ok in C. destruct C as (r & Rr & C).
  apply ok_inj in C. subst c.
  destruct (capacity_inv _ _ _ _ Hi C0) as (R & D & ->).
  unfold recirc_capacity in Rr. rewrite qdiv_ok in Rr by exact R. cbn [bind] in Rr.
  rewrite qdiv_ok in Rr by exact D. apply ok_inj in Rr. subst r.
  unfold recirc_loss. rewrite <- BD. field. split; assumption.
Qed.
Print Assumptions C37_capacity_balance_rtp.

(** Fewer run hours need strictly more capacity; so does more demand. *)
Theorem C37_monotone : forall lib s1 s2 b1 b2 m1 m2 slope1 slope2 fract1 fract2 s1' s2' b1' b2' w1 w2 inlet c1 c2,
  dhw_size base_klass lib s1 b1 None m1 slope1 fract1 = (s1', b1', Ok w1) ->
  dhw_size base_klass lib s2 b2 None m2 slope2 fract2 = (s2', b2', Ok w2) ->
  design_inlet b1 = Ok inlet -> design_inlet b2 = Ok inlet ->
  dh_supply s1 = dh_supply s2 -> dh_defrost s1 = dh_defrost s2 ->
  inlet < dh_supply s1 -> 0 < dh_defrost s1 -> 0 < dh_run s2 ->
  dh_run s2 <= dh_run s1 -> 0 <= bd_daily b1 -> bd_daily b1 <= bd_daily b2 ->
  (dh_run s2 < dh_run s1 /\ 0 < bd_daily b1 \/ bd_daily b1 < bd_daily b2) ->
  dh_min_cap s1' = Some c1 -> dh_min_cap s2' = Some c2 -> c1 < c2.
Proof.
  intros lib s1 s2 b1 b2 m1 m2 slope1 slope2 fract1 fract2 s1' s2' b1' b2' w1 w2 inlet c1 c2
    H1 H2 I1 I2 ES ED Hs Hd R2 RR D0 DD Strict E1 E2.
  destruct (C37_capacity_balance _ _ _ _ _ _ _ _ _ _ _ (or_introl eq_refl) H1 I1) as (x & X & B1).
  rewrite X in E1. injection E1 as ->.
  destruct (C37_capacity_balance _ _ _ _ _ _ _ _ _ _ _ (or_introl eq_refl) H2 I2) as (y & Y & B2).
  rewrite Y in E2. injection E2 as ->.
  rewrite <- ES, <- ED in *.
  set (k := 1000 * dh_defrost s1). set (h := rho_cp * (dh_supply s1 - inlet)).
  assert (K : 0 < k) by (unfold k; lra).
  assert (Hh : 0 < h) by (unfold h; apply Qmult_lt_0_compat; [reflexivity|lra]).
  assert (B1' : c1 * (k * dh_run s1) == bd_daily b1 * h) by (unfold k, h; lra).
  assert (B2' : c2 * (k * dh_run s2) == bd_daily b2 * h) by (unfold k, h; lra).
  clearbody k h.
  assert (K1 : 0 < k * dh_run s1) by (apply Qmult_lt_0_compat; lra).
  assert (K2 : 0 < k * dh_run s2) by (apply Qmult_lt_0_compat; lra).
  assert (F1 : c1 == bd_daily b1 * h / (k * dh_run s1)) by (rewrite <- B1'; field; split; lra).
  rewrite F1. apply qdiv_lt_iff; [exact K1|].
  assert (C2 : 0 <= c2).
  { assert (F2 : c2 == bd_daily b2 * h / (k * dh_run s2)) by (rewrite <- B2'; field; split; lra).
    rewrite F2. apply qdiv_nonneg; [|exact K2]. apply Qmult_le_0_compat; lra. }
  assert (L1 : k * dh_run s2 <= k * dh_run s1) by (rewrite !(Qmult_comm k); apply Qmult_le_compat_r; lra).
  assert (L2 : c2 * (k * dh_run s2) <= c2 * (k * dh_run s1)) by (rewrite !(Qmult_comm c2); apply Qmult_le_compat_r; assumption).
  assert (L3 : bd_daily b1 * h <= bd_daily b2 * h) by (apply Qmult_le_compat_r; lra).
  destruct Strict as [[S1 S2]|S1].
  - assert (C2' : 0 < c2).
    { assert (F2 : c2 == bd_daily b2 * h / (k * dh_run s2)) by (rewrite <- B2'; field; split; lra).
      rewrite F2. apply qdiv_pos; [|exact K2]. apply Qmult_lt_0_compat; lra. }
    assert (L4 : k * dh_run s2 < k * dh_run s1) by (rewrite !(Qmult_comm k); apply Qmult_lt_compat_r; lra).
    assert (L5 : c2 * (k * dh_run s2) < c2 * (k * dh_run s1)) by (rewrite !(Qmult_comm c2); apply Qmult_lt_compat_r; assumption).
    lra.
  - assert (L4 : bd_daily b1 * h < bd_daily b2 * h) by (apply Qmult_lt_compat_r; lra). lra.
Qed.
Print Assumptions C37_monotone.

Example C37_case : exists s1' w1 s2' w2 c1 c2,
  dhw_size base_klass ex_lib ex_dhw ex_building None ex_map 2 1 = (s1', ex_building, Ok w1) /\
  dhw_size base_klass ex_lib (dh_set_run ex_dhw 12) ex_building None ex_map 2 1 = (s2', ex_building, Ok w2) /\
  dh_min_cap s1' = Some c1 /\ dh_min_cap s2' = Some c2 /\ 0 < c1 /\ c1 < c2.
Proof.
  destruct (dhw_size base_klass ex_lib ex_dhw ex_building None ex_map 2 1) as [[s1' b1'] o1] eqn:E1.
  destruct (dhw_size base_klass ex_lib (dh_set_run ex_dhw 12) ex_building None ex_map 2 1) as [[s2' b2'] o2] eqn:E2.
  vm_compute in E1, E2. inversion E1; inversion E2; subst. do 6 eexists.
  split; [reflexivity|]. split; [reflexivity|]. split; [reflexivity|]. split; [reflexivity|].
  split; vm_compute; reflexivity.
Qed.

Example C37_rtp_case : exists s' w c,
  dhw_size (sprtp_klass 110 (3 # 1)) ex_lib ex_dhw ex_building None ex_map 2 1 = (s', ex_building, Ok w) /\
  dh_min_cap s' = Some c /\
  c * 1000 * 1 * 16 == 1000 * rho_cp * (120 - 50) + 24 * (3 * 60) * rho_cp * (120 - 110).
Proof.
  destruct (dhw_size (sprtp_klass 110 (3 # 1)) ex_lib ex_dhw ex_building None ex_map 2 1) as [[s' b'] o] eqn:E.
  vm_compute in E. inversion E; subst. do 3 eexists. split; [reflexivity|]. split; [reflexivity|]. vm_compute. reflexivity.
Qed.

(** ** C38 The stratification factor is the usable fraction of the tank at the on-trigger *)
Theorem C38_factor_is_integral : forall s d c slope inlet factor,
  dict_get d "normal" = Some c ->
  0 < slope -> 0 <= ct_on_sensor c -> inlet < dh_supply s -> dh_supply s <= dh_storage s ->
  ct_on_trigger c <= dh_storage s ->
  strat_factor s (Some d) slope inlet = Ok factor ->
  is_integral (usable_at (ct_on_sensor c * 100) (ct_on_trigger c) slope (dh_supply s) (dh_storage s) inlet)
              0 100 (factor * 100) /\
  nondecreasing_on (usable_at (ct_on_sensor c * 100) (ct_on_trigger c) slope (dh_supply s) (dh_storage s) inlet) 0 100.
Proof.
  intros s d c slope inlet factor G Hm Ho Hi Hs Ht H. split; [|apply usable_mono; assumption].
  unfold strat_factor in H. cbn [map_of] in H. destruct d as [|e d]; [discriminate G|]. rewrite G in H.
  apply bind_ok in H. destruct H as (x & H1 & H). apply ok_inj in H. subst factor.
  refine (is_integral_comp _ _ _ x _ _ (supply_gal_integral _ _ _ _ _ _ Hm Ho Hi Hs Ht H1)). field.
Qed.
Print Assumptions C38_factor_is_integral.

(** Without controls: as if a sensor at the bottom read the supply temperature. *)
Theorem C38_no_controls : forall s m slope inlet factor,
  m = None \/ m = Some [] ->
  0 < slope -> inlet < dh_supply s -> dh_supply s <= dh_storage s ->
  strat_factor s m slope inlet = Ok factor ->
  is_integral (usable_at 0 (dh_supply s) slope (dh_supply s) (dh_storage s) inlet) 0 100 (factor * 100).
Proof.
  intros s m slope inlet factor N Hm Hi Hs H. unfold strat_factor in H.
  replace (map_of m) with (@nil (string * controls)) in H by (destruct N as [->| ->]; reflexivity).
  apply bind_ok in H. destruct H as (x & H1 & H). apply ok_inj in H. subst factor.
  change 0 with (0 * 100) at 1.
  refine (is_integral_comp _ _ _ x _ _ (supply_gal_integral _ _ _ _ _ _ Hm (Qle_refl 0) Hi Hs Hs H1)). field.
Qed.
Print Assumptions C38_no_controls.

(** Controls without a "normal" entry: the smallest of the entries' factors. *)
Theorem C38_without_normal : forall s d slope inlet factor,
  d <> [] -> dict_get d "normal" = None ->
  0 < slope -> inlet < dh_supply s -> dh_supply s <= dh_storage s ->
  (forall k c, In (k, c) d -> 0 <= ct_on_sensor c /\ ct_on_trigger c <= dh_storage s) ->
  strat_factor s (Some d) slope inlet = Ok factor ->
  (exists k c, In (k, c) d /\
     is_integral (usable_at (ct_on_sensor c * 100) (ct_on_trigger c) slope (dh_supply s) (dh_storage s) inlet) 0 100 (factor * 100)) /\
  (forall k c I, In (k, c) d ->
     is_integral (usable_at (ct_on_sensor c * 100) (ct_on_trigger c) slope (dh_supply s) (dh_storage s) inlet) 0 100 I ->
     factor * 100 <= I).
Proof.
  intros s d slope inlet factor Nd G Hm Hi Hs Hc H.
  unfold strat_factor in H. cbn [map_of] in H. destruct d as [|e d]; [congruence|]. rewrite G in H.
  apply bind_ok in H. destruct H as (l & H1 & H). apply py_min_le in H. destruct H as [P Q].
  apply mapM_in in H1. destruct H1 as [M1 M2].
  assert (INT : forall k c y, In (k, c) (e :: d) ->
    (do x <- supply_gal_100 s (ct_on_sensor (snd (k, c))) (ct_on_trigger (snd (k, c))) slope inlet; Ok (x / 100)) = Ok y ->
    is_integral (usable_at (ct_on_sensor c * 100) (ct_on_trigger c) slope (dh_supply s) (dh_storage s) inlet) 0 100 (y * 100)).
  { intros k c y X Y. apply bind_ok in Y. destruct Y as (x & Y1 & Y). apply ok_inj in Y. subst y. cbn [snd] in Y1.
    destruct (Hc _ _ X) as [C1 C2].
    refine (is_integral_comp _ _ _ x _ _ (supply_gal_integral _ _ _ _ _ _ Hm C1 Hi Hs C2 Y1)). field. }
  split.
  - destruct (M2 _ P) as ([k c] & X & Y). exists k, c. split; [exact X|]. apply (INT k); assumption.
  - intros k c J X HJ. destruct (M1 _ X) as (y & Y1 & Y2). pose proof (INT _ _ _ X Y1) as HI.
    destruct (Hc _ _ X) as [C1 C2].
    pose proof (integral_unique _ 0 100 _ _ ltac:(lra) (usable_mono _ _ _ _ _ _ Hm Hi Hs C2 0 100) HI HJ) as E.
    pose proof (Q _ Y2). lra.
Qed.
Print Assumptions C38_without_normal.

(** Sized storage times factor is the running volume. *)
Theorem C38_storage_times_factor : forall K lib s b b1 sched m slope fract s' b' w inlet factor,
  (if bd_is_annual b then bd_set_daily lib b else Ok b) = Ok b1 ->
  no_load_shift sched m ->
  dhw_size K lib s b sched m slope fract = (s', b', Ok w) ->
  design_inlet b1 = Ok inlet -> strat_factor s m slope inlet = Ok factor ->
  exists V C R, dh_min_stor s' = Some V /\ dh_min_cap s' = Some C /\ k_running K s b1 C = Ok R /\ V * factor == R.
Proof.
  intros K lib s b b1 sched m slope fract s' b' w inlet factor Hb NL H Hi Hf.
  destruct (normal_size_inv _ _ _ _ _ _ _ _ _ _ _ _ _ NL Hb Hi H) as (cap & rv & f & stor & S1 & S2 & _ & R & F & T).
  rewrite Hf in F. apply ok_inj in F. subst f. exists stor, cap, rv. repeat (split; [assumption|]).
  apply qdiv_inv in T. destruct T as [Z ->]. apply qdiv_mul. exact Z.
Qed.
Print Assumptions C38_storage_times_factor.

(** A trigger above the storage temperature (never reached by the profile) breaks the formula. *)
Theorem C38_trigger_above_storage_refuted : exists s c factor I,
  strat_factor s (Some [("normal"%string, c)]) 2 50 = Ok factor /\ dh_storage s < ct_on_trigger c /\
  0 <= ct_on_sensor c <= 1 /\ dh_supply s <= dh_storage s /\
  is_integral (usable_at (ct_on_sensor c * 100) (ct_on_trigger c) 2 (dh_supply s) (dh_storage s) 50) 0 100 I /\
  factor * 100 < I.
Proof.
  exists ex_dhw, (mkControls (1 # 2) 170 (1 # 10) 130 150).
  destruct (strat_factor ex_dhw (Some [("normal"%string, mkControls (1 # 2) 170 (1 # 10) 130 150)]) 2 50) as [f|] eqn:E;
    [|vm_compute in E; discriminate].
  exists f, (50 * (100 # 70)). split; [reflexivity|]. split; [reflexivity|]. split; [split; discriminate|]. split; [discriminate|].
  split.
  - set (U := usable_at (ct_on_sensor (mkControls (1 # 2) 170 (1 # 10) 130 150) * 100)
               (ct_on_trigger (mkControls (1 # 2) 170 (1 # 10) 130 150)) 2 (dh_supply ex_dhw) (dh_storage ex_dhw) 50).
    assert (UV : forall h, U h == if qltb h 50 then 0 else 100 # 70).
    { intro h. unfold U, usable_at. cbn [ct_on_sensor ct_on_trigger dh_supply dh_storage ex_dhw].
      change ((1 # 2) * 100) with (100 # 2).
      destruct (qltb h (100 # 2)) eqn:A; destruct (qltb h 50) eqn:B; qbool; try lra.
      assert (TP : trigger_profile (100 # 2) 170 2 150 h == 150).
      { unfold trigger_profile. destruct (qmin_spec 150 (170 + (h - (100 # 2)) * 2)) as [[P Q]|[P Q]]; rewrite Q; lra. }
      destruct (qltb (trigger_profile (100 # 2) 170 2 150 h) 120) eqn:C; qbool; [lra|].
      rewrite TP. reflexivity. }
    assert (SQ : squeezes U (fun x => if qltb x 50 then 0 else (x - 50) * (100 # 70)) 0 100).
    { intros x y _ Hxy _. rewrite !UV. destruct (qltb x 50) eqn:A; destruct (qltb y 50) eqn:B; qbool; split; lra. }
    apply integral_of_antiderivative in SQ. refine (is_integral_comp _ _ _ _ _ _ SQ).
    vm_compute. reflexivity.
  - vm_compute in E. injection E as <-. vm_compute. reflexivity.
Qed.
Print Assumptions C38_trigger_above_storage_refuted.

Example C38_case : exists factor,
  strat_factor ex_dhw ex_map 2 50 = Ok factor /\ dict_get [("normal"%string, ex_controls)] "normal" = Some ex_controls /\
  0 <= ct_on_sensor ex_controls /\ ct_on_trigger ex_controls <= dh_storage ex_dhw /\
  1 < factor /\ factor < 100 # 70.
Proof.
  eexists. split; [vm_compute; reflexivity|]. split; [reflexivity|]. repeat split; try discriminate.
Qed.

(** ** C39 Load-shift sizing *)

(** The hours used are those of the first maximal run of shed hours, and the load-up hours counted are
    exactly those directly before it. *)
Theorem C39_first_block_exact : forall sched a k u,
  (24 <= length sched)%nat -> is_first_shed_run sched a k -> load_up_before sched a u ->
  first_shed_block sched = Ok (map Z.of_nat (seq a k), Z.of_nat u).
Proof.
  intros sched a k u L A B. destruct (first_shed_block_total sched L) as ([block lu] & E). rewrite E.
  destruct (first_shed_block_spec _ _ _ E) as (_ & [(_ & _ & N)|(a' & k' & u' & E1 & E2 & A' & B')]).
  - exfalso. destruct A as (K0 & AK & LB & _). apply (N a ltac:(lia)). specialize (LB 0%nat K0). rewrite Nat.add_0_r in LB. exact LB.
  - destruct (first_shed_run_unique _ _ _ _ _ A A') as [-> ->]. pose proof (load_up_before_unique _ _ _ _ B B') as ->.
    subst. reflexivity.
Qed.
Print Assumptions C39_first_block_exact.

(** What a successful load-shift sizing computed. *)
Lemma ls_size_inv lib s b b1 sc d slope fract s' b' w inlet :
  (if bd_is_annual b then bd_set_daily lib b else Ok b) = Ok b1 -> design_inlet b1 = Ok inlet ->
  sc <> [] -> dict_get d "shed" <> None ->
  dhw_size base_klass lib s b (Some sc) (Some d) slope fract = (s', b', Ok w) ->
  exists s1 c0 lcap g lrv rv f st lst,
    s1 = dh_set_run s (qmin (dh_run s) (non_shed_hours sc)) /\
    base_capacity s1 b1 = Ok c0 /\ base_capacity_ls s1 sc d b1 slope fract = Ok lcap /\
    base_gen_ls s1 sc d b1 slope fract = Ok g /\ base_running_ls sc b1 g fract = Ok lrv /\
    base_running s1 b1 c0 = Ok rv /\ strat_factor s (Some d) slope inlet = Ok f /\ storage_volume rv f = Ok st /\
    storage_volume_ls s lrv d slope inlet = Ok lst /\
    dh_min_cap s' = Some (qmax c0 lcap) /\ dh_min_stor s' = Some (qmax st lst).
Proof.
  intros Hb Hi Nsc Nd H.
  assert (LA : ls_active (Some sc) (Some d) = true).
  { unfold ls_active, is_load_shifting, dict_has. destruct sc; [congruence|]. destruct (dict_get d "shed"); [reflexivity|congruence]. }
  destruct (size_ok_inv _ _ _ _ _ _ _ _ _ _ _ H) as (b1' & cap & stor & E1 & E2 & ->).
  rewrite Hb in E1. apply ok_inj in E1. subst b1'.
  unfold cap_run in E2. rewrite LA in E2.
  destruct (size_values_inv _ _ _ _ _ _ _ _ _ E2) as (i & c0 & rv & f & st & A & B & C & D & E & [(F & _)|X]); [congruence|].
  rewrite Hi in A. apply ok_inj in A. subst i.
  destruct X as (sc' & d' & lcap & g & lrv & lst & Q1 & Q2 & _ & Q3 & Q4 & Q5 & Q6 & -> & ->).
  injection Q1 as <-. injection Q2 as <-.
  exists (dh_set_run s (qmin (dh_run s) (non_shed_hours sc))), c0, lcap, g, lrv, rv, f, st, lst.
  split; [reflexivity|]. do 8 (split; [assumption|]). split; reflexivity.
Qed.

Lemma non_shed_nonneg sc : 0 <= non_shed_hours sc.
Proof. unfold non_shed_hours. change 0 with (inject_Z 0). unfold qz. rewrite <- Zle_Qle. lia. Qed.

(** Capacity with load shifting is at least the capacity without. *)
Theorem C39_capacity_at_least_normal : forall lib s b sc d slope fract s1' b1' w1 s2' b2' w2 inlet c1 c2,
  sc <> [] -> dict_get d "shed" <> None ->
  dhw_size base_klass lib s b (Some sc) (Some d) slope fract = (s1', b1', Ok w1) ->
  dhw_size base_klass lib s b None (Some d) slope fract = (s2', b2', Ok w2) ->
  design_inlet b = Ok inlet -> inlet <= dh_supply s -> 0 <= bd_daily b -> 0 < dh_run s -> 0 < dh_defrost s ->
  dh_min_cap s1' = Some c1 -> dh_min_cap s2' = Some c2 -> c2 <= c1.
Proof.
  intros lib s b sc d slope fract s1' b1' w1 s2' b2' w2 inlet c1 c2 N1 N2 H1 H2 Hi Hs Hd Hr Hf E1 E2.
  destruct (C37_capacity_balance _ _ _ _ _ _ _ _ _ _ _ (or_introl eq_refl) H2 Hi) as (y & Y & B2).
  rewrite Y in E2. injection E2 as ->.
  destruct (size_ok_inv _ _ _ _ _ _ _ _ _ _ _ H1) as (b1 & _ & _ & Hb & _ & _).
  rewrite <- (design_inlet_daily _ _ _ Hb) in Hi. destruct (set_daily_fields _ _ _ Hb) as [_ BD].
  destruct (ls_size_inv _ _ _ _ _ _ _ _ _ _ _ _ Hb Hi N1 N2 H1) as (s1 & c0 & lcap & g & lrv & rv & f & st & lst & -> & C0 & _ & _ & _ & _ & _ & _ & _ & M & _).
  rewrite M in E1. injection E1 as <-.
  apply Qle_trans with c0; [|apply qmax_l].
  destruct (capacity_inv _ _ _ _ Hi C0) as (R & D & EC). cbn [dh_set_run dh_run dh_supply dh_defrost] in R, D, EC.
  set (r := qmin (dh_run s) (non_shed_hours sc)) in *.
  assert (R0 : 0 < r).
  { destruct (Qlt_le_dec 0 r) as [P|P]; [exact P|]. exfalso. apply R. 
    assert (0 <= r) by (apply qmin_glb; [lra|apply non_shed_nonneg]). lra. }
  assert (RR : r <= dh_run s) by apply qmin_l.
  assert (EC' : c0 * (1000 * dh_defrost s) * r == bd_daily b1 * rho_cp * (dh_supply s - inlet)) by (rewrite EC; field; auto).
  rewrite <- BD in B2.
  set (k := 1000 * dh_defrost s) in *. assert (K : 0 < k) by (unfold k; lra).
  assert (B2' : c2 * k * dh_run s == c0 * k * r) by (rewrite EC'; unfold k; lra).
  assert (HN : 0 <= c0 * k * r).
  { rewrite EC'. apply Qmult_le_0_compat; [|lra]. apply Qmult_le_0_compat; [rewrite BD; exact Hd|discriminate]. }
  destruct (Qlt_le_dec c0 c2) as [P|P]; [exfalso|exact P].
  assert (C00 : 0 <= c0).
  { destruct (Qlt_le_dec c0 0) as [Q0|Q0]; [exfalso|exact Q0].
    assert (c0 * (k * r) < 0 * (k * r)) by (apply Qmult_lt_compat_r; [apply Qmult_lt_0_compat; assumption|exact Q0]). lra. }
  assert (c0 * (k * dh_run s) < c2 * (k * dh_run s)) by (apply Qmult_lt_compat_r; [apply Qmult_lt_0_compat; assumption|exact P]).
  assert (c0 * k * r <= c0 * k * dh_run s).
  { rewrite !(Qmult_comm (c0 * k)). apply Qmult_le_compat_r; [exact RR|apply Qmult_le_0_compat; lra]. }
  lra.
Qed.
Print Assumptions C39_capacity_at_least_normal.

(** Storage with load shifting is at least the normal storage at the run hours left by the schedule. *)
Theorem C39_storage_at_least_same_hours : forall lib s b sc d slope fract s1' b1' w1 s2' b2' w2 v1 v2,
  sc <> [] -> dict_get d "shed" <> None ->
  dhw_size base_klass lib s b (Some sc) (Some d) slope fract = (s1', b1', Ok w1) ->
  dhw_size base_klass lib (dh_set_run s (qmin (dh_run s) (non_shed_hours sc))) b None (Some d) slope fract = (s2', b2', Ok w2) ->
  dh_min_stor s1' = Some v1 -> dh_min_stor s2' = Some v2 -> v2 <= v1.
Proof.
  intros lib s b sc d slope fract s1' b1' w1 s2' b2' w2 v1 v2 N1 N2 H1 H2 E1 E2.
  destruct (size_ok_inv _ _ _ _ _ _ _ _ _ _ _ H1) as (b1 & cp & sr & Hb & V1 & _).
  destruct (size_values_inv _ _ _ _ _ _ _ _ _ V1) as (inlet & _ & _ & _ & _ & Hi & _).
  destruct (ls_size_inv _ _ _ _ _ _ _ _ _ _ _ _ Hb Hi N1 N2 H1) as (s1 & c0 & lcap & g & lrv & rv & f & st & lst & -> & C0 & _ & _ & _ & R & F & T & _ & _ & M).
  rewrite M in E1. injection E1 as <-.
  destruct (normal_size_inv _ _ _ _ _ _ _ _ _ _ _ _ _ (or_introl eq_refl) Hb Hi H2) as (cap & rv' & f' & stor & _ & S2 & C' & R' & F' & T').
  rewrite S2 in E2. injection E2 as <-.
  cbn [k_capacity k_running base_klass] in *. rewrite C0 in C'. apply ok_inj in C'. subst cap.
  rewrite R in R'. apply ok_inj in R'. subst rv'.
  change (strat_factor (dh_set_run s (qmin (dh_run s) (non_shed_hours sc))) (Some d) slope inlet) with (strat_factor s (Some d) slope inlet) in F'.
  rewrite F in F'. apply ok_inj in F'. subst f'. rewrite T in T'. apply ok_inj in T'. subst stor. apply qmax_l.
Qed.
Print Assumptions C39_storage_at_least_same_hours.

(** It can be less than the storage without load shifting, which is sized for more run hours. *)
Definition ex_day_shape : list Q := repeat 0 8 ++ repeat (1 # 10) 10 ++ repeat 0 6.
Definition ex_day_building : building :=
  mkBuilding (Some (cz_from_design (Some 30) (Some 50))) 1000 ex_day_shape ex_day_shape "custom".
Definition ex_night_shed : schedule := repeat "shed"%string 8 ++ repeat "normal"%string 10 ++ repeat "shed"%string 6.
Definition ex_shed_controls : controls := mkControls (3 # 5) 110 (1 # 2) 130 150.
Definition ex_ls_map : ctl_map := [("normal"%string, ex_controls); ("shed"%string, ex_shed_controls)].
Theorem C39_storage_less_refuted : exists s1' w1 s2' w2 v1 v2,
  dhw_size base_klass ex_lib ex_dhw ex_day_building (Some ex_night_shed) (Some ex_ls_map) 2 1 = (s1', ex_day_building, Ok w1) /\
  dhw_size base_klass ex_lib ex_dhw ex_day_building None (Some ex_ls_map) 2 1 = (s2', ex_day_building, Ok w2) /\
  dh_min_stor s1' = Some v1 /\ dh_min_stor s2' = Some v2 /\ v1 == 0 /\ 300 < v2.
Proof.
  destruct (dhw_size base_klass ex_lib ex_dhw ex_day_building (Some ex_night_shed) (Some ex_ls_map) 2 1) as [[s1' b1'] o1] eqn:E1.
  destruct (dhw_size base_klass ex_lib ex_dhw ex_day_building None (Some ex_ls_map) 2 1) as [[s2' b2'] o2] eqn:E2.
  vm_compute in E1, E2. inversion E1; inversion E2; subst. do 6 eexists.
  split; [reflexivity|]. split; [reflexivity|]. split; [reflexivity|]. split; [reflexivity|].
  split; vm_compute; reflexivity.
Qed.
Print Assumptions C39_storage_less_refuted.

(** The volume between the load-up off-state and the shed on-state covers the first shed block and what
    follows until the tank is full again; the capacity supports the generation rate assumed. *)
Theorem C39_shed_window_covered : forall lib s b b1 sc d slope fract s' b' w inlet nc shc lx sx,
  (if bd_is_annual b then bd_set_daily lib b else Ok b) = Ok b1 ->
  sc <> [] -> dict_get d "shed" = Some shc -> dict_get d "normal" = Some nc ->
  dhw_size base_klass lib s b (Some sc) (Some d) slope fract = (s', b', Ok w) ->
  design_inlet b1 = Ok inlet -> inlet <= dh_supply s -> 0 < dh_defrost s ->
  0 <= fract -> 0 <= bd_daily b1 -> (forall x, In x (bd_avg b1) -> 0 <= x) ->
  supply_gal_100 s (ct_off_sensor (ctl_load_up d nc)) (ct_off_trigger (ctl_load_up d nc)) slope inlet = Ok lx ->
  supply_gal_100 s (ct_on_sensor shc) (ct_on_trigger shc) slope inlet = Ok sx ->
  sx < lx ->
  exists V C gen a k, dh_min_stor s' = Some V /\ dh_min_cap s' = Some C /\
    gen * rho_cp * (dh_supply s - inlet) <= C * 1000 * dh_defrost s /\
    is_first_shed_run sc a k /\
    (forall n, (n <= k)%nat ->
       0 <= level (V * ((lx - sx) / 100)) (fun t => fract * shed_gen sc gen t)
                  (fun t => fract * demand_at (bd_daily b1) (bd_avg b1) t) a n) /\
    (forall n, (k < n)%nat -> (a + n <= 48)%nat ->
       0 <= level (V * ((lx - sx) / 100)) (fun t => fract * shed_gen sc gen t)
                  (fun t => fract * demand_at (bd_daily b1) (bd_avg b1) t) a n
       \/ exists j, (k < j < n)%nat /\
            level (V * ((lx - sx) / 100)) (fun t => fract * shed_gen sc gen t)
                  (fun t => fract * demand_at (bd_daily b1) (bd_avg b1) t) a j == V * ((lx - sx) / 100)).
Proof.
  intros lib s b b1 sc d slope fract s' b' w inlet nc shc lx sx Hb N1 Gs Gn H Hi Hs Hdf F0 D0 Sh Lx Sx LS.
  assert (N2 : dict_get d "shed" <> None) by congruence.
  destruct (ls_size_inv _ _ _ _ _ _ _ _ _ _ _ _ Hb Hi N1 N2 H) as (s1 & c0 & lcap & g & lrv & rv & f & st & lst & -> & C0 & LC & G & R & _ & _ & _ & T & M1 & M2).
  unfold storage_volume_ls in T. unfold ctl in T. rewrite Gn, Gs in T. cbn [bind] in T. rewrite Lx, Sx in T. cbn [bind] in T.
  unfold storage_volume in T. apply qdiv_inv in T. destruct T as [BZ ET].
  set (band := (lx - sx) / 100) in *.
  assert (B0 : 0 < band) by (unfold band; apply qdiv_pos; lra).
  assert (RV : lrv <= qmax st lst * band).
  { apply qdiv_le_iff; [exact B0|]. rewrite <- ET. apply qmax_r. }
  destruct (shed_covered _ _ _ _ _ _ R F0 D0 Sh RV) as (a & k & P1 & P2 & P3).
  exists (qmax st lst), (qmax c0 lcap), g, a, k. split; [exact M2|]. split; [exact M1|].
  split; [|auto].
  unfold base_capacity_ls, capacity_of_gen in LC. rewrite Hi in LC. cbn [bind] in LC. rewrite G in LC. cbn [bind] in LC.
  apply bind_ok in LC. destruct LC as (x & X & LC). apply qdiv_inv in X. cbn [dh_set_run dh_supply dh_defrost] in X. destruct X as [DZ ->].
  apply ok_inj in LC.
  assert (E : g * rho_cp * (dh_supply s - inlet) == lcap * (1000 * dh_defrost s)) by (rewrite <- LC; field; exact DZ).
  rewrite E.
  assert (lcap * (1000 * dh_defrost s) <= qmax c0 lcap * (1000 * dh_defrost s)) by (apply Qmult_le_compat_r; [apply qmax_r|lra]).
  lra.
Qed.
Print Assumptions C39_shed_window_covered.

(** A later, heavier shed block is not looked at: with two blocks, the sized store runs dry in the second. *)
Definition ex_two_sheds : schedule :=
  repeat "shed"%string 2 ++ repeat "normal"%string 8 ++ repeat "shed"%string 8 ++ repeat "normal"%string 6.
Definition ex_noon_shape : list Q := repeat 0 10 ++ repeat (1 # 8) 8 ++ repeat 0 6.
Definition ex_noon_building : building :=
  mkBuilding (Some (cz_from_design (Some 30) (Some 50))) 1000 ex_noon_shape ex_noon_shape "custom".
Theorem C39_second_block_refuted : exists s' w V lx sx,
  dhw_size base_klass ex_lib ex_dhw ex_noon_building (Some ex_two_sheds) (Some ex_ls_map) 2 1 = (s', ex_noon_building, Ok w) /\
  dh_min_stor s' = Some V /\
  supply_gal_100 ex_dhw (ct_off_sensor ex_controls) (ct_off_trigger ex_controls) 2 50 = Ok lx /\
  supply_gal_100 ex_dhw (ct_on_sensor ex_shed_controls) (ct_on_trigger ex_shed_controls) 2 50 = Ok sx /\ sx < lx /\
  (forall gen, level (V * ((lx - sx) / 100)) (shed_gen ex_two_sheds gen) (demand_at 1000 ex_noon_shape) 10 8 < 0).
Proof.
  destruct (dhw_size base_klass ex_lib ex_dhw ex_noon_building (Some ex_two_sheds) (Some ex_ls_map) 2 1) as [[s1' b1'] o1] eqn:E1.
  vm_compute in E1. inversion E1; subst. do 5 eexists.
  split; [reflexivity|]. split; [reflexivity|]. split; [vm_compute; reflexivity|]. split; [vm_compute; reflexivity|].
  split; [vm_compute; reflexivity|].
  intro gen. eapply Qle_lt_trans; [apply level_le_window|].
  cbn [wsum Nat.add]. unfold shed_gen.
  cbn [Nat.modulo Nat.divmod fst snd Nat.sub is_shed nth_error ex_two_sheds repeat app String.eqb Ascii.eqb Bool.eqb].
  vm_compute. reflexivity.
Qed.
Print Assumptions C39_second_block_refuted.

(** The generation rate also heats, within the load-up hours, what they consume plus the share of the
    shifted volume between the normal and the load-up setting. *)
Theorem C39_load_up_rate : forall s sched d b slope fract g nc sc np lp sp a k u,
  base_gen_ls s sched d b slope fract = Ok g ->
  dict_get d "normal" = Some nc -> dict_get d "shed" = Some sc ->
  strat_pct s (ct_on_sensor nc) (ct_on_trigger nc) slope = Ok np ->
  strat_pct s (ct_on_sensor (ctl_load_up d nc)) (ct_on_trigger (ctl_load_up d nc)) slope = Ok lp ->
  strat_pct s (ct_on_sensor sc) (ct_on_trigger sc) slope = Ok sp -> sp < lp ->
  is_first_shed_run sched a k -> load_up_before sched a u -> (0 < u)%nat ->
  bd_daily b / dh_run s <= g /\
  demand_of_hours (bd_daily b) (bd_avg b) (a - u) u +
    fract * demand_of_hours (bd_daily b) (bd_avg b) a k * (lp - np) / (lp - sp) <= g * qz (Z.of_nat u).
Proof.
  intros s sched d b slope fract g nc sc np lp sp a k u H Gn Gs Np Lp Sp L A B U.
  destruct (gen_ls_inv _ _ _ _ _ _ _ H) as [P Q]. split; [exact P|].
  assert (C1 : ctl d "normal" = Ok nc) by (unfold ctl; rewrite Gn; reflexivity).
  assert (C2 : ctl d "shed" = Ok sc) by (unfold ctl; rewrite Gs; reflexivity).
  specialize (Q nc sc lp np sp a k u C1 C2 Np Lp Sp L A B).
  destruct u as [|u]; [lia|]. cbn [Nat.eqb] in Q. lra.
Qed.
Print Assumptions C39_load_up_rate.

(** Controls for shed hours but no shed hour in the schedule: sizing always raises. *)
Theorem C39_no_shed_hour_fails : forall lib s b sc d slope fract s' b' out,
  (24 <= length sc)%nat -> dict_get d "shed" <> None ->
  (forall h, (h < 24)%nat -> nth_error sc h <> Some "shed"%string) ->
  dhw_size base_klass lib s b (Some sc) (Some d) slope fract = (s', b', out) ->
  forall w, out <> Ok w.
Proof.
  intros lib s b sc d slope fract s' b' out L1 Nd N H w ->.
  assert (Nsc : sc <> []) by (destruct sc; [cbn in L1; lia|discriminate]).
  destruct (size_ok_inv _ _ _ _ _ _ _ _ _ _ _ H) as (b1 & cp & sr & Hb & V1 & _).
  destruct (size_values_inv _ _ _ _ _ _ _ _ _ V1) as (inlet & _ & _ & _ & _ & Hi & _).
  destruct (ls_size_inv _ _ _ _ _ _ _ _ _ _ _ _ Hb Hi Nsc Nd H) as (s1 & c0 & lcap & g & lrv & rv & f & st & lst & _ & _ & _ & _ & R & _).
  destruct (running_ls_inv _ _ _ _ _ R) as (a & k & u & def & _ & A & _).
  destruct A as (K0 & AK & LB & _). apply (N a ltac:(lia)). specialize (LB 0%nat K0). rewrite Nat.add_0_r in LB. exact LB.
Qed.
Print Assumptions C39_no_shed_hour_fails.

Definition ex_ls_sched : schedule :=
  repeat "normal"%string 14 ++ repeat "loadUp"%string 3 ++ repeat "shed"%string 4 ++ repeat "normal"%string 3.
Definition ex_lu_controls : controls := mkControls (1 # 10) 110 0 130 150.
Definition ex_lu_map : ctl_map :=
  [("normal"%string, ex_controls); ("loadUp"%string, ex_lu_controls); ("shed"%string, ex_shed_controls)].
Example C39_case : exists s' w V C lx sx np lp sp g,
  dhw_size base_klass ex_lib ex_dhw ex_building (Some ex_ls_sched) (Some ex_lu_map) 2 1 = (s', ex_building, Ok w) /\
  dh_min_stor s' = Some V /\ dh_min_cap s' = Some C /\ 500 < V /\ 0 < C /\
  is_first_shed_run ex_ls_sched 17 4 /\ load_up_before ex_ls_sched 17 3 /\
  supply_gal_100 ex_dhw (ct_off_sensor ex_lu_controls) (ct_off_trigger ex_lu_controls) 2 50 = Ok lx /\
  supply_gal_100 ex_dhw (ct_on_sensor ex_shed_controls) (ct_on_trigger ex_shed_controls) 2 50 = Ok sx /\ sx < lx /\
  strat_pct ex_dhw (1 # 5) 110 2 = Ok np /\ strat_pct ex_dhw (1 # 10) 110 2 = Ok lp /\
  strat_pct ex_dhw (3 # 5) 110 2 = Ok sp /\ sp < np /\ np < lp /\
  base_gen_ls ex_dhw ex_ls_sched ex_lu_map ex_building 2 1 = Ok g.
Proof.
  destruct (dhw_size base_klass ex_lib ex_dhw ex_building (Some ex_ls_sched) (Some ex_lu_map) 2 1) as [[s1' b1'] o1] eqn:E1.
  vm_compute in E1. inversion E1; subst. do 10 eexists.
  split; [reflexivity|]. split; [reflexivity|]. split; [reflexivity|].
  split; [vm_compute; reflexivity|]. split; [vm_compute; reflexivity|].
  split; [|split; [|repeat split; vm_compute; reflexivity]].
  - repeat split; try lia.
    + intros i Hi. do 4 (destruct i as [|i]; [reflexivity|]). lia.
    + intros h Hh. do 17 (destruct h as [|h]; [discriminate|]). lia.
    + right. discriminate.
  - repeat split; try lia.
    + intros i Hi. do 3 (destruct i as [|i]; [reflexivity|]). lia.
    + right. discriminate.
Qed.
