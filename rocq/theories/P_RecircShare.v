(** C93: the recirculation share a single-pass return-to-primary system reports. *)
From Verif Require Import Prelude M_StratifiedTank M_Building L_Building M_Heater L_Heater M_Sizing S_Sizing L_Sizing L_Sizing2 L_Sizing3 L_Sizing4
  S_EngineSize M_RecircShare P_Sizing P_Sizing2 P_Tighten.
Open Scope Q_scope.

Lemma rtp_size_inv ret flow o c o' out : rtp_size ret flow o c = (o', out) ->
  dh_run (rt_dhw o') = dh_run (rt_dhw o) /\ dh_supply (rt_dhw o') = dh_supply (rt_dhw o) /\ dh_defrost (rt_dhw o') = dh_defrost (rt_dhw o) /\
  ((exists e, out = Err e /\ rt_share o' = rt_share o) \/
   (out = Ok tt /\ exists q, rt_share o' = Some q /\
    q == loop_kbtuh (dh_supply (rt_dhw o)) ret flow * 24 / dh_run (rt_dhw o) / dh_defrost (rt_dhw o) /\ ~ dh_run (rt_dhw o) == 0 /\ ~ dh_defrost (rt_dhw o) == 0 /\
    exists b' w, dhw_size (sprtp_klass ret flow) (sz_lib c) (rt_dhw o) (sz_building c) (sz_sched c) (sz_map c) (sz_slope c) (sz_fract c) = (rt_dhw o', b', Ok w))).
Proof.
  unfold rtp_size, sprtp_size. destruct (dhw_size _ _ _ _ _ _ _ _) as [[s b'] w] eqn:E. pose proof (C40_size_keeps_system _ _ _ _ _ _ _ _ _ _ _ E) as (K1 & K2 & _ & K4).
  destruct (bind w (fun _ => recirc_capacity s ret flow)) as [q|e] eqn:X; intro H; injection H as <- <-; cbn [rt_dhw rt_share].
  - split; [exact K1|]. split; [exact K2|]. split; [exact K4|]. right. split; [reflexivity|]. exists q. split; [reflexivity|].
    destruct (bind_ok _ _ _ X) as (w' & -> & Y). unfold recirc_capacity in Y. destruct (bind_ok _ _ _ Y) as (x & Y1 & Y2).
    apply qdiv_inv in Y1. apply qdiv_inv in Y2. destruct Y1 as (N1 & ->). destruct Y2 as (N2 & ->). rewrite K1 in *. rewrite K4 in *.
    split; [|split; [exact N1|split; [exact N2|exists b', w'; reflexivity]]]. unfold recirc_loss, loop_kbtuh. rewrite K2. field. split; assumption.
  - split; [exact K1|]. split; [exact K2|]. split; [exact K4|]. left. exists e. split; reflexivity.
Qed.

(** Whatever sizings were tried: the share is refused with RuntimeError exactly while none of them has succeeded, and
    is then the heat the loop loses in a day, spread over the configured run hours and raised for defrost. *)
Theorem C93_reports : forall ret flow s calls o outs,
  rtp_sizings ret flow (mkRtp s None) calls = (o, outs) ->
  (rtp_get_share o = Err RuntimeError /\ (forall x, In x outs -> exists e, x = Err e)) \/
  (In (Ok tt) outs /\ exists q, rtp_get_share o = Ok q /\
   q * dh_defrost s * dh_run s == 24 * loop_kbtuh (dh_supply s) ret flow).
Proof.
  intros ret flow s calls o outs H.
  assert (G : forall calls o0 o outs, rtp_sizings ret flow o0 calls = (o, outs) -> dh_run (rt_dhw o0) = dh_run s -> dh_supply (rt_dhw o0) = dh_supply s -> dh_defrost (rt_dhw o0) = dh_defrost s ->
    (rt_share o = rt_share o0 /\ (forall x, In x outs -> exists e, x = Err e)) \/
    (In (Ok tt) outs /\ exists q, rt_share o = Some q /\ q * dh_defrost s * dh_run s == 24 * loop_kbtuh (dh_supply s) ret flow)).
  { clear. induction calls as [|c r IH]; intros o0 o outs H R S D; cbn [rtp_sizings] in H.
    - injection H as <- <-. left. split; [reflexivity|]. intros x [].
    - destruct (rtp_size ret flow o0 c) as [o1 out] eqn:E. destruct (rtp_sizings ret flow o1 r) as [o2 outs'] eqn:E2. injection H as <- <-.
      destruct (rtp_size_inv _ _ _ _ _ _ E) as (K1 & K2 & K3 & K). rewrite R in *. rewrite S in *. rewrite D in *.
      destruct (IH _ _ _ E2 K1 K2 K3) as [(A1 & A2)|(A1 & A2)].
      + destruct K as [(e & -> & B)|(-> & q & B1 & B2 & N1 & N2 & _)].
        * left. split; [congruence|]. intros x [<-|J]; [exists e; reflexivity|exact (A2 x J)].
        * right. split; [left; reflexivity|]. exists q. split; [congruence|]. rewrite B2. field. split; assumption.
      + right. split; [right; exact A1|exact A2]. }
  destruct (G calls _ _ _ H eq_refl eq_refl eq_refl) as [(A1 & A2)|(A1 & q & A2 & A3)].
  - left. split; [unfold rtp_get_share; rewrite A1; reflexivity|exact A2].
  - right. split; [exact A1|]. exists q. split; [unfold rtp_get_share; rewrite A2; reflexivity|exact A3].
Qed.
Print Assumptions C93_reports.

(** Without load shifting it is exactly what the loop adds to the capacity of a system without one sized for the same building. *)
Theorem C93_is_what_the_loop_adds : forall ret flow o c o' q s' b' w,
  no_load_shift (sz_sched c) (sz_map c) -> rtp_size ret flow o c = (o', Ok tt) -> rtp_get_share o' = Ok q ->
  dhw_size base_klass (sz_lib c) (rt_dhw o) (sz_building c) (sz_sched c) (sz_map c) (sz_slope c) (sz_fract c) = (s', b', Ok w) ->
  exists with_loop without, dh_min_cap (rt_dhw o') = Some with_loop /\ dh_min_cap s' = Some without /\ with_loop == without + q.
Proof.
  intros ret flow o c o' q s' b' w NL H G HB. destruct (rtp_size_inv _ _ _ _ _ _ H) as (_ & _ & _ & [(e & X & _)|(_ & q' & A1 & A2 & N1 & N2 & b2 & w2 & A3)]); [discriminate X|].
  unfold rtp_get_share in G. rewrite A1 in G. apply ok_inj in G. subst q'.
  destruct (size_ok_inv _ _ _ _ _ _ _ _ _ _ _ HB) as (b1 & cap & stor & E1 & E2 & _).
  destruct (size_values_inv _ _ _ _ _ _ _ _ _ E2) as (i & _ & _ & _ & _ & DI & _). rewrite (design_inlet_daily _ _ _ E1) in DI.
  destruct (C37_capacity_balance _ _ _ _ _ _ _ _ _ _ _ NL HB DI) as (c0 & C1 & C2).
  destruct (C37_capacity_balance_rtp _ _ _ _ _ _ _ _ _ _ _ _ _ NL A3 DI) as (c1 & C3 & C4).
  exists c1, c0. split; [exact C3|]. split; [exact C1|].
  assert (M : ~ 1000 * dh_defrost (rt_dhw o) * dh_run (rt_dhw o) == 0).
  { intro Z. apply Qmult_integral in Z. destruct Z as [Z|Z]; [apply Qmult_integral in Z; destruct Z as [Z|Z]; [discriminate Z|exact (N2 Z)]|exact (N1 Z)]. }
  apply (Qmult_inj_r _ _ _ M). rewrite A2. unfold loop_kbtuh. 
  transitivity (c1 * 1000 * dh_defrost (rt_dhw o) * dh_run (rt_dhw o)); [ring|]. rewrite C4.
  transitivity (c0 * 1000 * dh_defrost (rt_dhw o) * dh_run (rt_dhw o) + 24 * (flow * 60) * rho_cp * (dh_supply (rt_dhw o) - ret)); [rewrite C2; ring|field; split; assumption].
Qed.
Print Assumptions C93_is_what_the_loop_adds.

Lemma le_by_factor (x y k : Q) : 0 < k -> x * k <= y * k -> x <= y.
Proof. intros K H. apply Qmult_le_r in H; [exact H|exact K]. Qed.

Lemma shift_cases sched m : sched <> Some [] -> no_load_shift sched m \/ exists sc d, sched = Some sc /\ m = Some d /\ ls_active (Some sc) (Some d) = true.
Proof.
  intro NE. destruct sched as [sc|]; [|left; left; reflexivity]. destruct sc as [|h sc]; [destruct (NE eq_refl)|]. destruct m as [d|]; [|left; right; intros d X; discriminate X].
  destruct (is_load_shifting (Some d)) eqn:E; [right; exists (h :: sc), d; repeat split; exact E|].
  left. right. intros d' X. injection X as <-. unfold is_load_shifting, dict_has in E. destruct (dict_get d "shed"%string); [discriminate E|reflexivity].
Qed.

(** With or without load shifting, the share is at most the capacity it is a share of. *)
Theorem C93_within_capacity : forall ret flow o c o' q inlet,
  rtp_size ret flow o c = (o', Ok tt) -> rtp_get_share o' = Ok q ->
  sz_sched c <> Some [] -> (forall sc, sz_sched c = Some sc -> 0 < hours_outside_shed sc) ->
  design_inlet (sz_building c) = Ok inlet -> inlet <= dh_supply (rt_dhw o) -> 0 <= bd_daily (sz_building c) ->
  0 < dh_run (rt_dhw o) -> 0 < dh_defrost (rt_dhw o) -> 0 <= loop_kbtuh (dh_supply (rt_dhw o)) ret flow ->
  exists cap, dh_min_cap (rt_dhw o') = Some cap /\ 0 <= q /\ q <= cap.
Proof.
  intros ret flow o c o' q inlet H G NE HS DI IS BD R0 D0 L0. destruct (rtp_size_inv _ _ _ _ _ _ H) as (_ & _ & _ & [(e & X & _)|(_ & q' & A1 & A2 & N1 & N2 & b2 & w2 & A3)]); [discriminate X|].
  unfold rtp_get_share in G. rewrite A1 in G. apply ok_inj in G. subst q'.
  set (run := dh_run (rt_dhw o)) in *. set (df := dh_defrost (rt_dhw o)) in *. set (S := dh_supply (rt_dhw o)) in *.
  set (D := bd_daily (sz_building c) * rho_cp * (S - inlet)).
  assert (D1 : 0 <= D) by (unfold D; apply qmul_nonneg; [apply qmul_nonneg; [exact BD|discriminate]|lra]).
  assert (QE : q * (df * run) == 24 * loop_kbtuh S ret flow) by (rewrite A2; field; split; assumption).
  assert (LE : 24 * (flow * 60) * rho_cp * (S - ret) == 1000 * (24 * loop_kbtuh S ret flow)) by (unfold loop_kbtuh; field).
  assert (P0 : 0 < df * run) by (apply Qmult_lt_0_compat; assumption).
  assert (Q0 : 0 <= q) by (apply (le_by_factor _ _ (df * run) P0); rewrite QE; lra).
  destruct (shift_cases (sz_sched c) (sz_map c) NE) as [NL|(sc & d & ES & EM & LA)].
  - destruct (C37_capacity_balance_rtp _ _ _ _ _ _ _ _ _ _ _ _ _ NL A3 DI) as (c1 & C3 & C4). fold S df run D in C4. exists c1. split; [exact C3|]. split; [exact Q0|].
    apply (le_by_factor _ _ (df * run) P0). rewrite QE. rewrite LE in C4. assert (E : c1 * 1000 * df * run == 1000 * (c1 * (df * run))) by ring. rewrite E in C4. lra.
  - rewrite ES, EM in A3. destruct (C37_load_shift_rtp _ _ _ _ _ _ _ _ _ _ _ _ _ LA A3 DI) as (b1 & r & g & c1 & h & _ & EH & _ & _ & C3 & nm & sh & -> & C4 & _).
    fold S df run D in C4, EH. exists (qmax nm sh). split; [exact C3|]. split; [exact Q0|].
    pose proof (HS sc ES) as H0. assert (HH : 0 < h /\ h <= run) by (destruct (qmin_spec run (hours_outside_shed sc)) as [[? Z]|[? Z]]; rewrite Z in EH; lra). destruct HH as (H1 & H2).
    assert (K0 : 0 < df * h) by (apply Qmult_lt_0_compat; assumption).
    assert (QH : q * (df * h) <= q * (df * run)) by (assert (X : 0 <= q * df * (run - h)) by (apply qmul_nonneg; [apply qmul_nonneg; lra|lra]); assert (E : q * df * (run - h) == q * (df * run) - q * (df * h)) by ring; lra).
    rewrite LE in C4. assert (E : nm * 1000 * df * h == 1000 * (nm * (df * h))) by ring. rewrite E in C4.
    assert (NM : q <= nm) by (apply (le_by_factor _ _ (df * h) K0); lra).
    destruct (qmax_spec nm sh) as [[? ->]|[? ->]]; lra.
Qed.
Print Assumptions C93_within_capacity.

(** Whenever shed hours leave less time than the configured run hours, a heater of the reported share, running all the
    time it may, makes less heat than the loop loses in a day. *)
Theorem C93_short_under_load_shift : forall ret flow o c o' q sc,
  rtp_size ret flow o c = (o', Ok tt) -> rtp_get_share o' = Ok q ->
  sz_sched c = Some sc -> hours_outside_shed sc < dh_run (rt_dhw o) ->
  0 < dh_run (rt_dhw o) -> 0 < dh_defrost (rt_dhw o) -> 0 < loop_kbtuh (dh_supply (rt_dhw o)) ret flow ->
  q * dh_defrost (rt_dhw o) * hours_outside_shed sc < 24 * loop_kbtuh (dh_supply (rt_dhw o)) ret flow.
Proof.
  intros ret flow o c o' q sc H G ES HR R0 D0 L0. destruct (rtp_size_inv _ _ _ _ _ _ H) as (_ & _ & _ & [(e & X & _)|(_ & q' & A1 & A2 & N1 & N2 & _)]); [discriminate X|].
  unfold rtp_get_share in G. rewrite A1 in G. apply ok_inj in G. subst q'.
  assert (QE : q * dh_defrost (rt_dhw o) * dh_run (rt_dhw o) == 24 * loop_kbtuh (dh_supply (rt_dhw o)) ret flow) by (rewrite A2; field; split; assumption).
  assert (QD : 0 < q * dh_defrost (rt_dhw o)).
  { apply Qnot_le_lt. intro Z. assert (Y : 0 <= (- (q * dh_defrost (rt_dhw o))) * dh_run (rt_dhw o)) by (apply qmul_nonneg; lra). assert (E : (- (q * dh_defrost (rt_dhw o))) * dh_run (rt_dhw o) == - (q * dh_defrost (rt_dhw o) * dh_run (rt_dhw o))) by ring. lra. }
  rewrite <- QE. apply Qmult_lt_l; assumption.
Qed.
Print Assumptions C93_short_under_load_shift.

(** With load shifting it is not: the capacity is sized for the hours outside shed, the share reported for the
    configured ones.  Ten hours a day may run here, and in them a heater of the reported share makes less heat than
    the loop loses in a day; what the loop adds to the capacity is more than the share. *)
Theorem C93_load_shift_refuted : exists o' q s' w with_loop without,
  let c := mkSizing ex_lib ex_day_building (Some ex_night_shed) (Some ex_ls_map) 2 1 in
  rtp_size 110 3 (mkRtp ex_dhw None) c = (o', Ok tt) /\ rtp_get_share o' = Ok q /\
  hours_outside_shed ex_night_shed == 10 /\ dh_defrost ex_dhw = 1 /\
  q * 10 < 24 * loop_kbtuh (dh_supply ex_dhw) 110 3 /\
  dhw_size base_klass ex_lib ex_dhw ex_day_building (Some ex_night_shed) (Some ex_ls_map) 2 1 = (s', ex_day_building, Ok w) /\
  dh_min_cap (rt_dhw o') = Some with_loop /\ dh_min_cap s' = Some without /\ without + q < with_loop /\
  hours_outside_shed ex_night_shed < dh_run ex_dhw /\ q <= with_loop.
Proof.
  destruct (rtp_size 110 3 (mkRtp ex_dhw None) (mkSizing ex_lib ex_day_building (Some ex_night_shed) (Some ex_ls_map) 2 1)) as [o' out] eqn:E1.
  destruct (dhw_size base_klass ex_lib ex_dhw ex_day_building (Some ex_night_shed) (Some ex_ls_map) 2 1) as [[s' b'] o2] eqn:E2.
  vm_compute in E1, E2. injection E1 as <- <-. injection E2 as <- <- <-. do 6 eexists. cbv zeta.
  split; [reflexivity|]. split; [reflexivity|]. split; [vm_compute; reflexivity|]. split; [reflexivity|]. split; [vm_compute; reflexivity|].
  split; [reflexivity|]. split; [reflexivity|]. split; [reflexivity|]. split; [vm_compute; reflexivity|]. split; [vm_compute; reflexivity|]. vm_compute. discriminate.
Qed.
Print Assumptions C93_load_shift_refuted.

(** A sizing that fails for want of a climate, then one that succeeds: refused first, then 15 kBTU/h of loss, all day, over 16 hours. *)
Example C93_case : exists o1 o2 e q with_loop s' b' w without,
  let no_climate := mkSizing ex_lib (mkBuilding None 1000 ex_day_shape ex_day_shape "custom") None None 2 1 in
  let good := mkSizing ex_lib ex_day_building None None 2 1 in
  rtp_sizings 110 3 (mkRtp ex_dhw None) [no_climate] = (o1, [Err e]) /\ rtp_get_share o1 = Err RuntimeError /\
  rtp_sizings 110 3 (mkRtp ex_dhw None) [no_climate; good] = (o2, [Err e; Ok tt]) /\ rtp_get_share o2 = Ok q /\
  22 < q /\ q < 23 /\ dh_min_cap (rt_dhw o2) = Some with_loop /\
  dhw_size base_klass ex_lib ex_dhw ex_day_building None None 2 1 = (s', b', Ok w) /\ dh_min_cap s' = Some without /\ with_loop == without + q.
Proof.
  destruct (rtp_sizings 110 3 (mkRtp ex_dhw None) [mkSizing ex_lib (mkBuilding None 1000 ex_day_shape ex_day_shape "custom") None None 2 1]) as [o1 u1] eqn:E1.
  destruct (rtp_sizings 110 3 (mkRtp ex_dhw None) [mkSizing ex_lib (mkBuilding None 1000 ex_day_shape ex_day_shape "custom") None None 2 1; mkSizing ex_lib ex_day_building None None 2 1]) as [o2 u2] eqn:E2.
  destruct (dhw_size base_klass ex_lib ex_dhw ex_day_building None None 2 1) as [[s' b'] o3] eqn:E3.
  vm_compute in E1, E2, E3. injection E1 as <- <-. injection E2 as <- <-. injection E3 as <- <- <-. do 9 eexists. cbv zeta.
  split; [reflexivity|]. split; [reflexivity|]. split; [reflexivity|]. split; [reflexivity|]. split; [vm_compute; reflexivity|]. split; [vm_compute; reflexivity|].
  split; [reflexivity|]. split; [reflexivity|]. split; [reflexivity|]. vm_compute. reflexivity.
Qed.
