(** Further theorems about tanks, maps, climate and sizing, added after mutation testing. *)
From Verif Require Import Prelude M_StratifiedTank S_StratifiedTank L_StratifiedTank M_MixedTank M_EnergyTank S_EnergyTank L_Slug
  M_Building L_Building M_Heater S_Heater L_Heater M_Sizing S_Sizing L_Sizing3.
From Verif Require Import P_Sizing.
Open Scope Q_scope.

(** ** C22: the profile after initialization *)

(** The lower [1 - share] of the tank is at inlet temperature; above it the temperature rises by the
    slope per percent of height until it reaches storage temperature. *)
Theorem C22_initial_profile : forall t storage cold share f, 0 < st_vol t -> 0 <= st_slope t -> cold <= storage ->
  exists x, st_temp (st_initialize t storage cold share) f = Ok x /\
    (f <= 1 - share -> x == cold) /\
    (1 - share <= f -> cold + st_slope t * (100 * (f - (1 - share))) <= storage -> x == cold + st_slope t * (100 * (f - (1 - share)))) /\
    (storage <= cold + st_slope t * (100 * (f - (1 - share))) -> x == storage).
Proof.
  intros t storage cold share f V S C. unfold st_temp, st_initialize. cbn [st_delta st_vol st_slope st_inter st_inlet st_outlet]. cbv zeta.
  rewrite qdiv_ok by lra. cbn [bind]. eexists. split; [reflexivity|].
  assert (Z : 0 / st_vol t == 0) by (field; lra).
  assert (E : st_slope t * (f * 100 + 0 / st_vol t * 100) + (cold - st_slope t * ((1 - share) * 100)) == cold + st_slope t * (100 * (f - (1 - share)))) by (rewrite Z; ring).
  set (y := st_slope t * (f * 100 + 0 / st_vol t * 100) + (cold - st_slope t * ((1 - share) * 100))) in *. clearbody y.
  assert (G : forall g, g <= 1 - share -> st_slope t * (100 * (g - (1 - share))) <= 0).
  { intros g Hg. assert (0 <= st_slope t * (100 * ((1 - share) - g))) by (apply qmul_nonneg; lra).
    assert (X : st_slope t * (100 * (g - (1 - share))) == - (st_slope t * (100 * ((1 - share) - g)))) by ring. lra. }
  assert (GP : 1 - share <= f -> 0 <= st_slope t * (100 * (f - (1 - share)))) by (intro; apply qmul_nonneg; lra).
  destruct (qmin_spec storage y) as [[U ->]|[U ->]].
  - destruct (qmax_spec cold storage) as [[W ->]|[W ->]]; [|lra].
    split; [intro Hf; pose proof (G f Hf); lra|]. split; [intros H1 H2; lra|intros; lra].
  - destruct (qmax_spec cold y) as [[W ->]|[W ->]].
    + split; [intro Hf; pose proof (G f Hf); lra|]. split; [intros; lra|intros; lra].
    + split; [intros; lra|]. split; [intros H1 H2; pose proof (GP H1); lra|intros; lra].
Qed.
Print Assumptions C22_initial_profile.

Example C22_initial_case : exists x y, st_temp (st_initialize (st_new 100 1) 150 50 (3 # 4)) (1 # 4) = Ok x /\ x == 50 /\
  st_temp (st_initialize (st_new 100 1) 150 50 (3 # 4)) (1 # 2) = Ok y /\ y == 75.
Proof. eexists. eexists. split; [vm_compute; reflexivity|]. split; [reflexivity|]. split; [vm_compute; reflexivity|reflexivity]. Qed.

(** ** C25: usable volume of the mixed tank *)
Theorem C25_usable_volume : forall t supply,
  (supply <= mx_temp t -> mx_usable t supply = mx_vol t) /\ (mx_temp t < supply -> mx_usable t supply = 0).
Proof.
  intros t supply. unfold mx_usable. split; intro H; destruct (Qle_bool supply (mx_temp t)) eqn:E; qbool; try reflexivity; lra.
Qed.
Print Assumptions C25_usable_volume.

(** ** C29: usable volume under a slug *)
Theorem C29_usable_volume : forall lo h t supply, sl_reachable lo h t -> sl_active t = true ->
  exists u, sl_usable t supply = Ok u /\
    (supply <= sl_temp t -> u == sl_pu t * en_vol (sl_base t)) /\
    (sl_temp t < supply -> u == sl_pu t * en_vol (sl_base t) - sl_vol t).
Proof.
  intros lo h t supply R A. pose proof (sl_reachable_inv _ _ _ R) as (_ & _ & M & _).
  unfold sl_usable. cbv zeta. rewrite A. cbn [negb]. eexists. split; [reflexivity|].
  split; intro H; destruct (Qle_bool supply (sl_temp t)) eqn:E; qbool; lra.
Qed.
Print Assumptions C29_usable_volume.

(** ** C31: the outlet temperature is that of the controls in effect *)
Theorem C31_outlet : forall h hour c, in_effect h hour c -> wh_outlet_temp h hour = Ok (ct_outlet c).
Proof.
  intros h hour c H. assert (P : (0 <= hour)%Z) by apply H. apply (in_effect_iff h hour c P) in H. unfold wh_outlet_temp. rewrite H. reflexivity.
Qed.
Print Assumptions C31_outlet.

(** ** C32: maps with a single bracket *)

Lemma poly11_value c oat out inl : (length c = 11)%nat -> exists x, hp_poly11 c oat out inl = Ok x /\ x == poly_value eleven_terms c oat out inl.
Proof.
  intro L. destruct c as [|c0 [|c1 [|c2 [|c3 [|c4 [|c5 [|c6 [|c7 [|c8 [|c9 [|c10 [|]]]]]]]]]]]]; try discriminate L.
  eexists. split; [reflexivity|]. unfold poly_value. cbn. ring.
Qed.
Lemma poly6_value c oat out inl : (length c = 6)%nat -> exists x, hp_poly6 c oat inl = Ok x /\ x == poly_value six_terms c oat out inl.
Proof.
  intro L. destruct c as [|c0 [|c1 [|c2 [|c3 [|c4 [|c5 [|]]]]]]]; try discriminate L.
  eexists. split; [reflexivity|]. unfold poly_value. cbn. ring.
Qed.

(** Input power is the polynomial (in kW here, not watts) times the number of units; capacity is
    input times the COP polynomial. *)
Theorem C32_single_bracket : forall m e oat out inl,
  hp_perfmap m = [e] ->
  let terms := if hp_multipass m then six_terms else eleven_terms in
  length (he_pow e) = length terms -> length (he_cop e) = length terms ->
  exists p c, hp_power m (Some oat) out (Some inl) = Ok p /\ hp_capacity m (Some oat) out (Some inl) = Ok c /\
    p == poly_value terms (he_pow e) oat out inl * qz (hp_units m) /\
    c == p * poly_value terms (he_cop e) oat out inl * w_to_kbtuh.
Proof.
  intros m e oat out inl H terms L1 L2. unfold hp_power, hp_capacity, hp_per_unit. cbv zeta. rewrite H.
  subst terms. destruct (hp_multipass m).
  - destruct (poly6_value (he_pow e) oat out inl L1) as (x & -> & X). destruct (poly6_value (he_cop e) oat out inl L2) as (y & -> & Y). cbn [bind fst snd].
    eexists. eexists. split; [reflexivity|]. split; [reflexivity|]. rewrite <- X, <- Y. split; field; discriminate.
  - destruct (poly11_value (he_pow e) oat out inl L1) as (x & -> & X). destruct (poly11_value (he_cop e) oat out inl L2) as (y & -> & Y). cbn [bind fst snd].
    eexists. eexists. split; [reflexivity|]. split; [reflexivity|]. rewrite <- X, <- Y. split; field; discriminate.
Qed.
Print Assumptions C32_single_bracket.

Example C32_single_case : exists p, hp_power (mkHpMap [mkHpEntry 67 [3; 0; 0; 0; 0; 0; 0; 0; 0; 0; 0] [1; 0; 0; 0; 0; 0; 0; 1; 0; 0; 0]] 2 false None 50) (Some 40) 140 (Some 60) = Ok p /\ p == 11202.
Proof. eexists. split; [vm_compute; reflexivity|reflexivity]. Qed.

(** Operating bounds: at or above the lowest tabulated outdoor temperature. *)
Theorem C32_operating_bounds : forall m e l oat r, hp_perfmap m = e :: l -> pm_within_bounds (PmHpwhsim m) oat = Ok (Some r) -> (r = true <-> he_T e <= oat).
Proof.
  intros m e l oat r H E. cbn [pm_within_bounds] in E. rewrite H in E. apply ok_inj in E. injection E as <-. apply Qle_bool_iff.
Qed.
Print Assumptions C32_operating_bounds.
Theorem C34_operating_bounds : forall m o l oat r, pk_oats m = o :: l -> pm_within_bounds (PmPkl m) oat = Ok (Some r) -> (r = true <-> o <= oat).
Proof.
  intros m o l oat r H E. cbn [pm_within_bounds] in E. unfold pk_oat_min in E. rewrite H in E. cbn in E. apply ok_inj in E. injection E as <-. apply Qle_bool_iff.
Qed.
Print Assumptions C34_operating_bounds.

(** ** C34: inlet temperatures above the table are read as the table's highest *)
Theorem C34_inlet_clipped : forall m oat out i j, pk_hx m = false -> pk_inlet_max m < i -> pk_inlet_max m < j ->
  pk_capacity m oat out (Some i) = pk_capacity m oat out (Some j) /\ pk_power m oat out (Some i) = pk_power m oat out (Some j) /\
  pk_capacity m oat out (Some i) = pk_capacity m oat out (Some (pk_inlet_max m)).
Proof.
  intros m oat out i j H I J.
  assert (M : forall x, pk_inlet_max m < x -> qmin x (pk_inlet_max m) = pk_inlet_max m).
  { intros x X. destruct (qmin_spec x (pk_inlet_max m)) as [[U ->]|[U ->]]; [lra|reflexivity]. }
  assert (M2 : qmin (pk_inlet_max m) (pk_inlet_max m) = pk_inlet_max m) by (destruct (qmin_spec (pk_inlet_max m) (pk_inlet_max m)) as [[_ ->]|[_ ->]]; reflexivity).
  unfold pk_capacity, pk_power, pk_resolve. rewrite H. rewrite (M i I), (M j J), M2. auto.
Qed.
Print Assumptions C34_inlet_clipped.

(** A heat exchanger raises both temperatures by the same amount before the lookup. *)
Theorem C34_heat_exchanger : forall m oat out i, pk_hx m = true ->
  pk_capacity m oat out (Some i) = pk_capacity (pk_without_hx m) oat (out + pk_hx_increase m) (Some (i + pk_hx_increase m)) /\
  pk_power m oat out (Some i) = pk_power (pk_without_hx m) oat (out + pk_hx_increase m) (Some (i + pk_hx_increase m)).
Proof. intros m oat out i H. unfold pk_capacity, pk_power, pk_resolve. rewrite H. split; reflexivity. Qed.
Print Assumptions C34_heat_exchanger.

(** ** C08: buckets through the engine *)

(** Exactly one of ZIP code, zone and station is given; the buckets are those of its zone. *)
Theorem C08_engine : forall zips stations oats inlets zip zone station bs,
  engine_oat_buckets zips stations oats inlets zip zone station = Ok bs ->
  exists z c, cz_from_zone oats inlets z = Ok c /\ cz_oat_buckets c = Ok bs /\
    ((zone = Some z /\ zip = None /\ station = None) \/
     (exists k, zip = Some k /\ zone = None /\ station = None /\ cz_lookup zips k = Ok z) \/
     (exists k, station = Some k /\ zone = None /\ zip = None /\ cz_lookup stations k = Ok z)).
Proof.
  intros zips stations oats inlets zip zone station bs H. unfold engine_oat_buckets, cz_from_key in H.
  destruct zip as [k|], zone as [z|], station as [k'|]; try discriminate H.
  - destruct (bind_ok _ _ _ H) as (c & E & B). destruct (bind_ok _ _ _ E) as (z & L & F). exists z, c. split; [exact F|]. split; [exact B|]. right. left. exists k. auto.
  - destruct (bind_ok _ _ _ H) as (c & E & B). exists z, c. split; [exact E|]. split; [exact B|]. left. auto.
  - destruct (bind_ok _ _ _ H) as (c & E & B). destruct (bind_ok _ _ _ E) as (z & L & F). exists z, c. split; [exact F|]. split; [exact B|]. right. right. exists k'. auto.
Qed.
Print Assumptions C08_engine.

(** Two or none of the three raise. *)
Theorem C08_engine_ambiguous : forall zips stations oats inlets zip zone station,
  (match zip with Some _ => 1 | None => 0 end + match zone with Some _ => 1 | None => 0 end + match station with Some _ => 1 | None => 0 end <> 1)%nat ->
  engine_oat_buckets zips stations oats inlets zip zone station = Err ValueError.
Proof. intros zips stations oats inlets [k|] [z|] [k'|] H; try reflexivity; exfalso; apply H; reflexivity. Qed.
Print Assumptions C08_engine_ambiguous.

(** ** C39: the run hours load shifting allows *)
Lemma filter_count (sc : list string) : (length (filter (fun k => negb (String.eqb k "shed"%string)) sc) + count_occ string_dec sc "shed"%string = length sc)%nat.
Proof.
  induction sc as [|k sc IH]; [reflexivity|]. cbn [filter count_occ length]. destruct (string_dec k "shed") as [->|N].
  - cbn. lia.
  - apply String.eqb_neq in N. rewrite N. cbn. lia.
Qed.
Theorem C39_run_hours : forall sc, non_shed_hours sc == hours_outside_shed sc.
Proof.
  intro sc. unfold non_shed_hours, hours_outside_shed. pose proof (filter_count sc) as E.
  assert (X : Z.of_nat (length sc) = (Z.of_nat (length (filter (fun k => negb (String.eqb k "shed"%string)) sc)) + Z.of_nat (count_occ string_dec sc "shed"%string))%Z) by lia.
  rewrite X. unfold qz. rewrite inject_Z_plus. ring.
Qed.
Print Assumptions C39_run_hours.

(** ** C37: load-shift capacity of return-to-primary systems *)

(** [r] gallons of supply water a day carry the heat the loop loses in a day.  With load shifting, the
    sized capacity is the larger of the ordinary one (at the run hours load shifting allows) and the
    one that generates, besides the loop loss, at the load-up rate of the demand raised by [r]. *)
Theorem C37_load_shift_rtp : forall ret flow lib s b sc d slope fract s' b' w inlet,
  ls_active (Some sc) (Some d) = true ->
  dhw_size (sprtp_klass ret flow) lib s b (Some sc) (Some d) slope fract = (s', b', Ok w) -> design_inlet b = Ok inlet ->
  exists b1 r g c h,
    (if bd_is_annual b then bd_set_daily lib b else Ok b) = Ok b1 /\
    h == qmin (dh_run s) (hours_outside_shed sc) /\
    r * rho_cp * (dh_supply s - inlet) == 24 * (flow * 60) * rho_cp * (dh_supply s - ret) /\
    base_gen_ls (dh_set_run s h) sc d (bd_set_magnitude b1 (bd_daily b1 + r)) slope fract = Ok g /\
    dh_min_cap s' = Some c /\ exists normal shifted, c = qmax normal shifted /\
    normal * 1000 * dh_defrost s * h == bd_daily b * rho_cp * (dh_supply s - inlet) + 24 * (flow * 60) * rho_cp * (dh_supply s - ret) /\
    shifted * 1000 * dh_defrost s * h == g * h * rho_cp * (dh_supply s - inlet) + 24 * (flow * 60) * rho_cp * (dh_supply s - ret).
Proof.
  intros ret flow lib s b sc d slope fract s' b' w inlet LA H Hi.
  destruct (size_ok_inv _ _ _ _ _ _ _ _ _ _ _ H) as (b1 & cap & stor & E1 & E2 & ->). clear H.
  pose proof (design_inlet_daily _ _ _ E1) as DI. destruct (set_daily_fields _ _ _ E1) as [_ BD]. rewrite <- DI in Hi.
  unfold cap_run in E2. rewrite LA in E2. set (h := qmin (dh_run s) (non_shed_hours sc)) in *.
  destruct (size_values_inv _ _ _ _ _ _ _ _ _ E2) as (i & c0 & rv & f & st & A & B & C & D & E & [(F & _)|X]); [congruence|].
  rewrite Hi in A. apply ok_inj in A. subst i.
  destruct X as (sc' & d' & lcap & g & lrv & lst & Q1 & Q2 & _ & Q3 & Q4 & Q5 & Q6 & -> & ->).
  injection Q1 as <-. injection Q2 as <-.
  cbn [k_capacity k_capacity_ls k_gen_ls sprtp_klass] in B, Q3, Q4.
  unfold sprtp_gen_ls, sprtp_gen_ls_st in Q4. destruct (recirc_daily_gal ret flow (dh_set_run s h) b1) as [r|e] eqn:ER; [|discriminate Q4].
  cbn [with_boost snd] in Q4. cbv zeta in Q4. cbn [snd] in Q4.
  exists b1, r, g, (qmax c0 lcap), h. split; [exact E1|].
  split. { unfold h. pose proof (C39_run_hours sc) as NS. revert NS. generalize (non_shed_hours sc) (hours_outside_shed sc). intros x y NS.
    destruct (qmin_spec (dh_run s) x) as [[? ->]|[? ->]], (qmin_spec (dh_run s) y) as [[? ->]|[? ->]]; lra. }
  assert (RR : r * rho_cp * (dh_supply s - inlet) == 24 * (flow * 60) * rho_cp * (dh_supply s - ret)).
  { unfold recirc_daily_gal in ER. rewrite Hi in ER. cbn [bind dh_supply dh_set_run] in ER. destruct (bind_ok _ _ _ ER) as (x & Ex & E3). apply qdiv_inv in Ex. destruct Ex as (N & Ex). apply ok_inj in E3.
    rewrite <- E3, Ex. unfold recirc_loss. cbn [dh_supply dh_set_run].
    transitivity (flow * 60 * rho_cp * (dh_supply s - ret) / 1000 * 1000 / (rho_cp * (dh_supply s - inlet)) * (rho_cp * (dh_supply s - inlet)) * 24); [ring|]. rewrite qdiv_mul by exact N. field. }
  split; [exact RR|]. split; [exact Q4|]. split; [reflexivity|]. exists c0, lcap. split; [reflexivity|].
  unfold rtp_capacity in B. apply bind_ok in B. destruct B as (c1 & C1 & B). apply bind_ok in B. destruct B as (rc & Rr & B). apply ok_inj in B. subst c0.
  destruct (capacity_inv _ _ _ _ Hi C1) as (R & DF & ->). cbn [dh_set_run dh_run dh_supply dh_defrost] in R, DF |- *.
  unfold recirc_capacity in Rr. cbn [dh_set_run dh_run dh_supply dh_defrost] in Rr. rewrite qdiv_ok in Rr by exact R. cbn [bind] in Rr. rewrite qdiv_ok in Rr by exact DF. apply ok_inj in Rr.
  split.
  { rewrite <- Rr. unfold recirc_loss. cbn [dh_supply dh_set_run]. rewrite <- BD. field. split; assumption. }
  unfold sprtp_capacity_ls in Q3. destruct (bind_ok _ _ _ Q3) as (lc & L1 & L2). destruct (bind_ok _ _ _ L2) as (rc' & L3 & L4). apply ok_inj in L4. rewrite <- L4.
  unfold capacity_of_gen in L1. rewrite Hi in L1. cbn [bind] in L1. unfold sprtp_gen_ls, sprtp_gen_ls_st in L1. rewrite ER in L1. cbn [with_boost snd] in L1. cbv zeta in L1. cbn [snd] in L1. rewrite Q4 in L1. cbn [bind dh_supply dh_defrost dh_set_run] in L1.
  destruct (bind_ok _ _ _ L1) as (x & Ex & E3). apply qdiv_inv in Ex. destruct Ex as (_ & Ex). apply ok_inj in E3. rewrite <- E3, Ex.
  unfold recirc_capacity in L3. cbn [dh_set_run dh_run dh_supply dh_defrost] in L3. rewrite qdiv_ok in L3 by exact R. cbn [bind] in L3. rewrite qdiv_ok in L3 by exact DF. apply ok_inj in L3. rewrite <- L3.
  unfold recirc_loss. cbn [dh_supply dh_set_run]. field. split; assumption.
Qed.
Print Assumptions C37_load_shift_rtp.

(** ** C63: warnings *)

(** Every successful sizing warns exactly about reversed sensors and about controls whose deadband
    the sized heater heats in less than ten minutes. *)
Theorem C63_warns_exactly : forall K lib s b sched d slope fract s' b' w cap stor,
  dhw_size K lib s b sched (Some d) slope fract = (s', b', Ok w) ->
  dh_min_cap s' = Some cap -> dh_min_stor s' = Some stor -> 0 < cap -> dh_supply s < dh_storage s ->
  (forall k, In (k, WBackwards) w <-> exists c, In (k, c) d /\ ct_on_sensor c < ct_off_sensor c) /\
  (forall k, In (k, WShortCycle) w <-> exists c, In (k, c) d /\ ct_off_sensor c <= ct_on_sensor c /\ deadband_heat c stor (dh_supply s) (dh_storage s) * 60 < cap * 1000 * 10).
Proof.
  intros K lib s b sched d slope fract s' b' w cap stor H HC HS PC PS.
  assert (W : short_cycling s d cap stor = Ok w).
  { pose proof (size_ok_inv _ _ _ _ _ _ _ _ _ _ _ H) as (b1 & cp & sr & E1 & E2 & ES). rewrite ES in HC, HS. cbn in HC, HS. injection HC as ->. injection HS as ->.
    unfold dhw_size in H. rewrite E1 in H. unfold size_try in H. rewrite E2 in H.
    assert (SC : short_cycling (cap_run s sched (Some d)) d cap stor = short_cycling s d cap stor).
    { unfold cap_run. destruct sched as [sc|]; [destruct (ls_active (Some sc) (Some d))|]; reflexivity. }
    cbn [map_of] in H. destruct d as [|kc d].
    - assert (EN : short_cycling s [] cap stor = Ok []) by (unfold short_cycling; cbv zeta; destruct (Qle_bool _ 0); reflexivity).
      destruct (bd_is_annual b); [destruct (bd_set_annual lib b1)|]; try discriminate H;
        apply pair_equal_spec in H; destruct H as [_ H]; apply ok_inj in H; subst w; exact EN.
    - rewrite SC in H. destruct (short_cycling s (kc :: d) cap stor) as [w'|e]; [|discriminate H].
      destruct (bd_is_annual b); [destruct (bd_set_annual lib b1)|]; try discriminate H;
        apply pair_equal_spec in H; destruct H as [_ H]; exact H. }
  clear H HC HS. unfold short_cycling in W. cbv zeta in W. destruct (Qle_bool (dh_storage s - dh_supply s) 0) eqn:ED; qbool; [lra|].
  set (rate := cap * 1000 / (rho_cp * (dh_storage s - dh_supply s))) in *.
  assert (RP : 0 < rho_cp * (dh_storage s - dh_supply s)) by (apply qmul_pos; [reflexivity|lra]).
  assert (RT : rate * (rho_cp * (dh_storage s - dh_supply s)) == cap * 1000) by (unfold rate; rewrite qdiv_mul; lra).
  assert (P : 0 < rate) by (unfold rate; apply qdiv_pos; lra). clearbody rate.
  destruct (bind_ok _ _ _ W) as (ws & EW & E). apply ok_inj in E. subst w. clear W. revert ws EW.
  assert (ONE : forall c, ct_off_sensor c <= ct_on_sensor c -> exists hr, qdiv ((ct_on_sensor c - ct_off_sensor c) * stor) rate = Ok hr /\ (hr * 60 < 10 <-> deadband_heat c stor (dh_supply s) (dh_storage s) * 60 < cap * 1000 * 10)).
  { intros c _. rewrite qdiv_ok by lra. eexists. split; [reflexivity|].
    set (x := (ct_on_sensor c - ct_off_sensor c) * stor) in *.
    assert (Q1 : x / rate * 60 < 10 <-> x < rate * 10 / 60).
    { assert (Y : x / rate * rate == x) by (apply qdiv_mul; lra). assert (Z : rate * 10 / 60 == rate * (1 # 6)) by field. rewrite Z.
      split; intro G.
      - assert (L : x / rate < 1 # 6) by lra. assert (M : x / rate * rate < (1 # 6) * rate) by (apply Qmult_lt_r; assumption). lra.
      - assert (L : x / rate * rate < (1 # 6) * rate) by lra. apply Qmult_lt_r in L; [lra|exact P]. }
    rewrite Q1. unfold deadband_heat. fold x.
    set (k := rho_cp * (dh_storage s - dh_supply s)) in *.
    assert (Y : x * rho_cp * (dh_storage s - dh_supply s) == x * k) by (unfold k; ring). rewrite Y.
    assert (Z : rate * 10 / 60 == rate * (1 # 6)) by field. rewrite Z.
    split; intro G.
    - assert (L : x * k < rate * (1 # 6) * k) by (apply Qmult_lt_r; assumption). lra.
    - assert (L : x * k < rate * (1 # 6) * k) by lra. apply Qmult_lt_r in L; [exact L|exact RP]. }
  clear RT. induction d as [|[k0 c0] d IH]; intros ws EW.
  - apply ok_inj in EW. subst ws. split; intro k; split; [intros []|intros (c & [] & _)|intros []|intros (c & [] & _)].
  - cbn [mapM fst snd] in EW. destruct (bind_ok _ _ _ EW) as (w0 & E0 & E1). destruct (bind_ok _ _ _ E1) as (wr & E2 & E3). apply ok_inj in E3. subst ws.
    destruct (IH wr E2) as [I1 I2]. cbn [concat].
    assert (HEAD : (forall k, In (k, WBackwards) w0 <-> k = k0 /\ ct_on_sensor c0 < ct_off_sensor c0) /\
                   (forall k, In (k, WShortCycle) w0 <-> k = k0 /\ ct_off_sensor c0 <= ct_on_sensor c0 /\ deadband_heat c0 stor (dh_supply s) (dh_storage s) * 60 < cap * 1000 * 10)).
    { destruct (qltb (ct_on_sensor c0) (ct_off_sensor c0)) eqn:B; qbool.
      - apply ok_inj in E0. subst w0. split; intro k; split.
        + intros [X|[]]. injection X as ->. auto.
        + intros [-> _]. left. reflexivity.
        + intros [X|[]]. discriminate.
        + intros (_ & X & _). lra.
      - destruct (ONE c0 ltac:(lra)) as (hr & EH & HI). rewrite EH in E0. cbn [bind] in E0. apply ok_inj in E0. subst w0.
        destruct (qltb (hr * 60) 10) eqn:Q; qbool.
        + split; intro k; split.
          * intros [X|[]]. discriminate X.
          * intros (_ & X). lra.
          * intros [X|[]]. injection X as ->. split; [reflexivity|]. split; [lra|]. apply HI. assumption.
          * intros (-> & _). left. reflexivity.
        + split; intro k; split.
          * intros [].
          * intros (_ & X). lra.
          * intros [].
          * intros (_ & _ & X). apply HI in X. lra. }
    destruct HEAD as [H1 H2]. split; intro k; rewrite in_app_iff.
    + rewrite H1, I1. split.
      * intros [[-> X]|(c & X & Y)]; [exists c0; split; [left; reflexivity|exact X]|exists c; split; [right; exact X|exact Y]].
      * intros (c & [X|X] & Y); [injection X as <- <-; left; auto|right; exists c; auto].
    + rewrite H2, I2. split.
      * intros [[-> X]|(c & X & Y)]; [exists c0; split; [left; reflexivity|exact X]|exists c; split; [right; exact X|exact Y]].
      * intros (c & [X|X] & Y); [injection X as <- <-; left; auto|right; exists c; auto].
Qed.
Print Assumptions C63_warns_exactly.

(** With storage no hotter than supply there are no warnings at all, however the sensors sit. *)
Theorem C63_silent_without_lift : forall K lib s b sched m slope fract s' b' w, dh_storage s <= dh_supply s ->
  dhw_size K lib s b sched m slope fract = (s', b', Ok w) -> w = [].
Proof.
  intros K lib s b sched m slope fract s' b' w L H. pose proof (size_ok_inv _ _ _ _ _ _ _ _ _ _ _ H) as (b1 & cap & stor & E1 & E2 & ES).
  unfold dhw_size in H. rewrite E1 in H. unfold size_try in H. rewrite E2 in H.
  assert (SC : forall d, short_cycling (cap_run s sched m) d cap stor = Ok []).
  { intro d. assert (F : dh_storage (cap_run s sched m) = dh_storage s /\ dh_supply (cap_run s sched m) = dh_supply s).
    { unfold cap_run. destruct sched as [sc|]; [destruct (ls_active (Some sc) m)|]; split; reflexivity. }
    unfold short_cycling. cbv zeta. destruct F as [-> ->]. destruct (Qle_bool (dh_storage s - dh_supply s) 0) eqn:Q; [reflexivity|]. qbool. lra. }
  assert (M : match map_of m with [] => Ok [] | d => short_cycling (cap_run s sched m) d cap stor end = Ok []) by (destruct (map_of m); [reflexivity|apply SC]).
  rewrite M in H. destruct (bd_is_annual b); [destruct (bd_set_annual lib b1)|]; try discriminate H;
    apply pair_equal_spec in H; destruct H as [_ H]; apply ok_inj in H; symmetry; exact H.
Qed.
Print Assumptions C63_silent_without_lift.

(** A system that needs no capacity at all cannot be checked: sizing raises after storing its results. *)
Theorem C63_zero_capacity_raises : forall lib s b k c d slope fract cap stor,
  bd_is_annual b = false -> size_values base_klass s b None (Some ((k, c) :: d)) slope fract = Ok (cap, stor) ->
  cap == 0 -> dh_supply s < dh_storage s -> ct_off_sensor c <= ct_on_sensor c ->
  exists s', dhw_size base_klass lib s b None (Some ((k, c) :: d)) slope fract = (s', b, Err ZeroDivisionError) /\
    dh_min_cap s' = Some cap /\ dh_min_stor s' = Some stor.
Proof.
  intros lib s b k c d slope fract cap stor A E Z L O. unfold dhw_size. rewrite A. cbn [cap_run]. unfold size_try. rewrite E. cbn [map_of].
  unfold short_cycling. cbv zeta. destruct (Qle_bool (dh_storage s - dh_supply s) 0) eqn:Q; qbool; [lra|]. cbn [mapM fst snd].
  destruct (qltb (ct_on_sensor c) (ct_off_sensor c)) eqn:B; qbool; [lra|].
  assert (RP : 0 < rho_cp * (dh_storage s - dh_supply s)) by (apply qmul_pos; [reflexivity|lra]).
  assert (R0 : cap * 1000 / (rho_cp * (dh_storage s - dh_supply s)) == 0) by (rewrite Z; unfold Qdiv; ring).
  unfold qdiv at 1. destruct (Qeq_bool (cap * 1000 / (rho_cp * (dh_storage s - dh_supply s))) 0) eqn:X.
  - cbn [bind]. eexists. split; [reflexivity|]. split; reflexivity.
  - apply Qeq_bool_neq in X. contradiction.
Qed.
Print Assumptions C63_zero_capacity_raises.

Example C63_case : exists s' w cap stor,
  dhw_size base_klass ex_lib ex_dhw ex_building None (Some [("normal"%string, mkControls (1 # 5) 110 0 130 150); ("a"%string, mkControls (1 # 5) 110 (2 # 5) 130 150); ("b"%string, mkControls (1 # 5) 110 (19 # 100) 130 150)]) 2 1 = (s', ex_building, Ok w) /\
  dh_min_cap s' = Some cap /\ dh_min_stor s' = Some stor /\ 0 < cap /\ w = [("a"%string, WBackwards); ("b"%string, WShortCycle)].
Proof.
  destruct (dhw_size base_klass ex_lib ex_dhw ex_building None (Some [("normal"%string, mkControls (1 # 5) 110 0 130 150); ("a"%string, mkControls (1 # 5) 110 (2 # 5) 130 150); ("b"%string, mkControls (1 # 5) 110 (19 # 100) 130 150)]) 2 1) as [[s' b'] o] eqn:E.
  vm_compute in E. inversion E; subst. do 4 eexists. split; [reflexivity|]. split; [reflexivity|]. split; [reflexivity|]. split; [|reflexivity]. vm_compute. reflexivity.
Qed.

Example C37_load_shift_case : exists s' w c, ls_active (Some ex_ls_sched) (Some ex_lu_map) = true /\
  dhw_size (sprtp_klass 110 3) ex_lib ex_dhw ex_building (Some ex_ls_sched) (Some ex_lu_map) 2 1 = (s', ex_building, Ok w) /\
  dh_min_cap s' = Some c /\ 0 < c.
Proof.
  assert (C : match dhw_size (sprtp_klass 110 3) ex_lib ex_dhw ex_building (Some ex_ls_sched) (Some ex_lu_map) 2 1 with
    | (s', _, Ok _) => match dh_min_cap s' with Some c => qltb 0 c | None => false end | _ => false end = true) by (vm_compute; reflexivity).
  destruct (dhw_size (sprtp_klass 110 3) ex_lib ex_dhw ex_building (Some ex_ls_sched) (Some ex_lu_map) 2 1) as [[s' b'] [w|e]] eqn:E; [|discriminate C].
  destruct (dh_min_cap s') as [c|] eqn:EC; [|discriminate C].
  assert (b' = ex_building).
  { pose proof (f_equal (fun r => snd (fst r)) E) as X. cbn [fst snd] in X. rewrite <- X. unfold dhw_size. change (bd_is_annual ex_building) with false. cbv iota beta zeta.
    destruct (size_try (sprtp_klass 110 3) _ _ _ _ _ _) as [? [?|?]]; reflexivity. }
  subst b'. exists s', w, c. split; [reflexivity|]. split; [reflexivity|]. split; [exact EC|]. apply qltb_true. exact C.
Qed.
