(** C77: no shipped table model is credited with more than 12.5 times the heat of its power, and what that says of the
    energy of a simulated run. *)
From Verif Require Import Prelude M_StratifiedTank M_Building S_Building L_Building M_Heater S_Heater L_Heater M_Sizing S_Sizing M_SimRun S_SimRun L_SimRun M_Step S_Step L_Step L_Step2 L_Step6
  M_Swing M_MPRTP M_Engine S_Engine S_EngineRun S_EngineSize L_Engine L_Engine2 L_Engine6 L_Engine8 D_Models S_Shipped L_Shipped P_Engine P_Engine2 P_Engine3 P_Engine6 P_Shipped S_Lasts L_Lasts S_Audit S_Audit2 L_Audit L_Audit2 L_Audit3 L_ShippedRun P_Sizing P_Engine7 P_Lasts P_Lasts2 P_Audit P_Audit2 P_Audit3 L_StratifiedTank L_Lasts3 L_Lasts2 S_Lasts2 P_ShippedRun.
Open Scope Q_scope.

Definition entry_cop_le (B : Q) (e : hp_entry) : bool := quad_ge (map Qopp (he_cop e)) 32 145 (- B).

Fixpoint cops_le (B : Q) (l : list hp_entry) : bool :=
  match l with
  | [] => true
  | a :: r => (entry_cop_le B a && match r with b :: [] => entry_cop_le B b && entry_cop_le B (ext_entry a b) | _ => cops_le B r end)%bool
  end.

Lemma nth_opp i c : nth i (map Qopp c) 0 = - nth i c 0.
Proof. change 0 with (Qopp 0) at 1. apply map_nth. Qed.

Lemma cop_le_sound B e x : entry_cop_le B e = true -> 32 <= x -> x <= 145 -> rated_cop e x <= B.
Proof.
  intros H L U. pose proof (quad_ge_sound _ 32 145 (- B) x H ltac:(reflexivity) L U) as K. unfold rated_cop, poly2 in *. rewrite !nth_opp in K. lra.
Qed.

Lemma segment_cop B l oat x : 32 <= x -> x <= 145 -> oat <= 114 -> table_good l = true -> cops_le B l = true ->
  forall pre a b post, l = pre ++ a :: b :: post -> he_T a <= oat -> (oat <= he_T b \/ post = []) ->
  blend a b (rated_cop a x) (rated_cop b x) oat <= B.
Proof.
  intros X1 X2 HO. induction l as [|e l IH]; intros G C pre a b post E HA HB; [destruct pre; discriminate|].
  cbn [table_good] in G. apply andb_true_iff in G. destruct G as [_ G]. cbn [cops_le] in C. apply andb_true_iff in C. destruct C as [C1 C2].
  destruct pre as [|e' pre].
  - injection E as -> ->. apply andb_true_iff in G. destruct G as [GT G]. apply qltb_true in GT.
    assert (CB : rated_cop b x <= B).
    { destruct post as [|c post]; [apply andb_true_iff in C2; destruct C2 as [C2 _]; exact (cop_le_sound B b x C2 X1 X2)|].
      cbn [cops_le] in C2. apply andb_true_iff in C2. destruct C2 as [C2 _]. exact (cop_le_sound B b x C2 X1 X2). }
    pose proof (cop_le_sound B a x C1 X1 X2) as CA.
    destruct (Qlt_le_dec (he_T b) oat) as [H|H].
    + destruct HB as [HB|HB]; [lra|]. subst post. rewrite !andb_true_iff in G. destruct G as [[_ GL] _]. apply qltb_true in GL.
      apply andb_true_iff in C2. destruct C2 as [_ C3]. pose proof (cop_le_sound B _ x C3 X1 X2) as CE.
      assert (V : - rated_cop (ext_entry a b) x == - rated_cop a x + (- rated_cop b x - - rated_cop a x) * ((114 - he_T a) / (he_T b - he_T a))).
      { unfold rated_cop at 1, ext_entry. cbn [he_cop]. rewrite ext_coefs_value. unfold rated_cop. ring. }
      pose proof (line_above (he_T a) (he_T b) (- rated_cop a x) (- rated_cop b x) 114 (- rated_cop (ext_entry a b) x) oat (- B) GT GL V ltac:(lra) ltac:(lra) HA HO) as K.
      unfold blend. lra.
    + exact (proj2 (blend_between a b _ _ oat (qmin (rated_cop a x) (rated_cop b x)) B GT HA H (qmin_l _ _) (qmin_r _ _) CA CB)).
  - injection E as -> E. destruct l as [|e1 l1]; [destruct pre; discriminate|]. apply andb_true_iff in G. destruct G as [_ G].
    destruct l1 as [|e2 l2]; [exfalso; destruct pre as [|? [|? ?]]; discriminate|].
    exact (IH G C2 pre a b post E HA HB).
Qed.

Definition most : Q := 25 # 2.

Lemma shipped_cops : forall pk code e l, In (code, e) (shipped pk) -> tabulated e l -> cops_le most l = true.
Proof.
  intros pk code e l I [E1 E2].
  assert (C : forallb (fun ce => match re_pkl (snd ce), re_perfmap (snd ce) with None, Some t => cops_le most t | _, _ => true end) (shipped pk) = true) by (vm_compute; reflexivity).
  rewrite forallb_forall in C. specialize (C _ I). cbn [snd] in C. rewrite E1, E2 in C. exact C.
Qed.

(** For every outdoor temperature up to 114 F, ordinary water and any outlet, without a nominal capacity: the heat is at
    most 12.5 times what the power is worth. *)
Theorem C77_cop_at_most : forall pk code e l units design oat inlet outlet pm kw cap,
  In (code, e) (shipped pk) -> tabulated e l -> (1 <= units)%Z -> ordinary_water design -> ordinary_water (inlet_used design inlet) -> oat <= 114 ->
  pm_from_model (shipped pk) code units design None = Ok pm ->
  pm_power pm (Some oat) outlet inlet = Ok (Some kw) -> pm_capacity pm (Some oat) outlet inlet = Ok (Some cap) ->
  cap <= (25 # 2) * (kw * w_to_kbtuh).
Proof.
  intros pk code e l units design oat inlet outlet pm kw cap I TB NU [D1 D2] [X1 X2] HO EP EK EC.
  destruct (shipped_tables_good _ _ _ _ I TB) as [G L2]. pose proof (shipped_cops _ _ _ _ I TB) as CL. destruct (C54_shipped pk) as (_ & ND & _).
  unfold pm_from_model in EP. rewrite (in_dict _ _ _ ND I) in EP. destruct TB as [T1 T2]. rewrite T1, T2 in EP. apply ok_inj in EP. subst pm.
  set (m := mkHpMap l units (ends_with code "MP") None design) in *. cbn [pm_power pm_capacity] in EK, EC.
  destruct (good_map_runs m oat inlet outlet G L2 NU D1 D2 ltac:(discriminate) X1 X2 HO) as (kw' & cap' & P1 & P2 & P3 & P4 & P5).
  rewrite P1 in EK. rewrite P2 in EC. cbn [bind] in EK, EC. apply ok_inj in EK, EC. injection EK as ->. injection EC as ->.
  assert (KW : 0 < kw * w_to_kbtuh) by (apply qmul_pos; [exact P3|reflexivity]).
  pose proof (table_good_ok _ G L2) as TO. destruct l as [|a0 r0] eqn:EL; [discriminate|].
  destruct (Qlt_le_dec oat (he_T a0)) as [B|B]; [rewrite (P5 a0 r0 eq_refl B); lra|].
  assert (N0 : r0 <> []) by (intros ->; cbn in L2; lia).
  destruct (segment_exists oat (a0 :: r0) a0 r0 eq_refl N0 B) as (pre & a & b & post & E & HA & HB).
  pose proof (segment_cop most _ oat (inlet_used design inlet) X1 X2 HO G CL pre a b post E HA HB) as K.
  destruct (c32_segment m _ oat (inlet_used design inlet) outlet a b pre post TO E eq_refl HA HB) as (kw2 & cap2 & Q1 & Q2 & _ & Q4).
  assert (R1 : hp_power m (Some oat) outlet inlet = Ok kw2) by (destruct inlet; exact Q1). assert (R2 : hp_capacity m (Some oat) outlet inlet = Ok cap2) by (destruct inlet; exact Q2).
  rewrite P1 in R1. rewrite P2 in R2. apply ok_inj in R1, R2. subst kw2 cap2. rewrite Q4. unfold most in K.
  assert (0 <= kw * w_to_kbtuh * ((25 # 2) - blend a b (rated_cop a (inlet_used design inlet)) (rated_cop b (inlet_used design inlet)) oat)) by (apply qmul_nonneg; lra). lra.
Qed.
Print Assumptions C77_cop_at_most.

(** The bound is not far off: an A. O. Smith HPTS50 with 32 F water in 114 F air is credited with more than 12 times. *)
Theorem C77_cop_twelve_refuted : forall pk, exists pm kw cap,
  pm_from_model (shipped pk) "MODELS_AOSmithHPTS50_R_MP" 1 50 None = Ok pm /\
  pm_power pm (Some 114) 120 (Some 32) = Ok (Some kw) /\ pm_capacity pm (Some 114) 120 (Some 32) = Ok (Some cap) /\
  0 < kw /\ 12 * (kw * w_to_kbtuh) < cap.
Proof.
  intro pk. eexists _, _, _. split; [reflexivity|]. split; [vm_compute; reflexivity|]. split; [vm_compute; reflexivity|].
  split; reflexivity.
Qed.
Print Assumptions C77_cop_twelve_refuted.

Lemma shipped_efficient pk dt p e code en l vol iv : da_reg dt = shipped pk -> In (code, en) (shipped pk) -> tabulated en l -> ep_model p = Some code -> (1 <= ep_num p)%Z ->
  eng_new dt p = Ok e -> ep_volume p = Some vol -> type_of (en_system e) <> InstantWH ->
  (forall t x, bd_oat (en_building e) t iv = Ok x -> x <= 114) ->
  (forall t x, bd_inlet (en_building e) t iv = Ok x -> ordinary_water x) ->
  (exists t, bd_design_inlet (en_building e) = Ok (Some t) /\ ordinary_water t) ->
  efficient (en_building e) iv (primary_heaters (en_system e)) (ep_storage p) (25 # 2).
Proof.
  intros RG I TB EM NU H EV NI OA IW (td & ED' & OD) h0 t oat inlet c IH EO EI EC.
  destruct (shipped_fitted _ _ _ _ _ _ _ _ RG I TB H EV EM NI) as (h & di & EH & EW & d & ED & EX).
  rewrite ED in ED'. apply ok_inj in ED'. subst d.
  assert (DI : di = td). { apply EX; [reflexivity|]. destruct OD. lra. }
  rewrite EH in IH. destruct IH as [<-|[]]. rewrite <- DI in OD. pose proof (IW _ _ EI) as WI. pose proof (OA _ _ EO) as OB.
  destruct (C77_never_below_resistance pk code en l (ep_num p) di None oat (Some inlet) (ep_storage p) I TB NU OD ltac:(discriminate) WI OB) as (pm & kw & cap & E1 & E2 & E3 & K1 & _).
  pose proof (C77_cop_at_most pk code en l (ep_num p) di oat (Some inlet) (ep_storage p) pm kw cap I TB NU OD WI OB E1 E2 E3) as K2.
  assert (PM : pm = PmHpwhsim (mkHpMap l (ep_num p) (ends_with code "MP") None di)).
  { unfold pm_from_model in E1. destruct (C54_shipped pk) as (_ & ND & _). rewrite (in_dict _ _ _ ND I) in E1. destruct TB as [T1 T2]. rewrite T1, T2 in E1. apply ok_inj in E1. symmetry. exact E1. }
  unfold wh_capacity, wh_power in *. rewrite EW, <- PM in *. rewrite E3 in EC. apply ok_inj in EC. subst c. exists (Some kw). split; [exact E2|]. cbn [or0]. unfold w_to_kbtuh in K2.
  split; lra.
Qed.

(** A plant of such a model, with a stratified primary tank, whose run had no outage: the energy recorded, 12.5 times
    over, and what the full tank held cover the heat delivered to the building and the loop. *)
Theorem C77_energy_is_used : forall pk dt p e code en l dur thr maxm e' r total iv vol cold warm take,
  da_reg dt = shipped pk -> In (code, en) (shipped pk) -> tabulated en l -> ep_model p = Some code -> (1 <= ep_num p)%Z ->
  eng_new dt p = Ok e -> pooled (type_of (en_system e)) -> ep_volume p = Some vol -> 0 < vol -> lasts dur total iv ->
  cold <= warm -> warm < ep_supply p -> ep_supply p <= ep_storage p ->
  let b := en_building e in
  (forall t x, bd_oat b t iv = Ok x -> x <= 114) ->
  (forall t x, bd_inlet b t iv = Ok x -> ordinary_water x /\ cold <= x /\ x <= warm) ->
  (exists t, bd_design_inlet b = Ok (Some t) /\ ordinary_water t /\ cold <= t /\ t <= warm) ->
  (forall t avg x, bd_load b t iv avg = Ok x -> 0 <= x <= vol) ->
  loop_takes (type_of (en_system e)) p iv cold take ->
  eng_simulate e dur thr maxm = Ok (e', r) -> sr_outage r = 0%Z ->
  heat_taken r (ep_supply p) warm + heat_held (qz (Z.of_nat (length (sr_demand r))) * take) (ep_storage p) warm
  <= heat_held vol (ep_storage p) warm + (25 # 2) * (3412142 # 1000) * kwh_used r.
Proof.
  intros pk dt p e code en l dur thr maxm e' r total iv vol cold warm take RG I TB EM NU H PO EV V0 LA CW WS SS b OA IW (td & ED & OD & T1 & T2) LD LT SIM NO.
  assert (NI : type_of (en_system e) <> InstantWH) by (intro X; rewrite X in PO; destruct PO as [Y|[Y|Y]]; discriminate Y).
  assert (PV : primary_volume (en_system e) = Some vol) by (pose proof (proj2 (proj2 (C52_parts _ _ _ H)) NI) as PV; rewrite EV in PV; exact PV).
  refine (C91_plant_energy dt p e dur thr maxm e' r total iv vol cold warm take (25 # 2) H PO PV V0 LA CW WS SS _ _ LD LT _ SIM NO).
  - intros t x Y. exact (proj2 (IW t x Y)).
  - intros di Y. cbv delta [b] in ED, Y. rewrite ED in Y. apply ok_inj in Y. subst di. unfold sim_inlet. destruct OD. destruct (Qeq_bool td 0) eqn:Z0; [apply Qeq_bool_iff in Z0; exfalso; lra|]. split; assumption.
  - exact (shipped_efficient pk dt p e code en l vol iv RG I TB EM NU H EV NI OA (fun t x Y => proj1 (IW t x Y)) (ex_intro _ td (conj ED OD))).
Qed.
Print Assumptions C77_energy_is_used.

(** Three days of ten SANCO2 units on a 2000-gallon tank, as in [C77_simulated_case]. *)
Lemma sanco_gives l e : In ("MODELS_SANCO2_43_R_SP"%string, mkEntry (Some "SANCO2 43 gallon CO2 external heat pump"%string) false false 0 None (Some l)) (shipped (fun _ => mkPkFiles (fun _ => None) (fun _ => None) [] [] 0 0 0 0)) ->
  wh_pm e = Some (PmHpwhsim (mkHpMap l 10 false None 50)) -> exists c, wh_capacity e (Some 30) 150 (Some 50) = Ok (Some c) /\ 100 <= c.
Proof.
  intros I E. destruct (C54_shipped (fun _ => mkPkFiles (fun _ => None) (fun _ => None) [] [] 0 0 0 0)) as (_ & ND & _). pose proof (in_dict _ _ _ ND I) as G. vm_compute in G. injection G as <-.
  unfold wh_capacity. rewrite E. eexists. split; [vm_compute; reflexivity|vm_compute; discriminate].
Qed.

Example C77_energy_case : let pk := fun _ => mkPkFiles (fun _ => None) (fun _ => None) [] [] 0 0 0 0 in
  exists e e' r, eng_new (ex_sanco pk) ex_sanco_params = Ok e /\ type_of (en_system e) = PrimaryNoRecirc /\
  eng_simulate e "3day" 5 60 = Ok (e', r) /\ sr_outage r = 0%Z /\
  heat_taken r 120 50 <= heat_held 2000 150 50 + (25 # 2) * (3412142 # 1000) * kwh_used r.
Proof.
  intro pk. destruct (eng_new (ex_sanco pk) ex_sanco_params) as [e|er] eqn:N; [|vm_compute in N; discriminate].
  assert (X : type_of (en_system e) = PrimaryNoRecirc /\ second_tank (en_system e) = None) by (vm_compute in N; injection N as <-; split; reflexivity).
  destruct X as (T & S2). destruct (C77_case pk) as (l & I & TB & _).
  assert (NI : type_of (en_system e) <> InstantWH) by (rewrite T; discriminate). assert (NM : type_of (en_system e) <> MultiPassRTP) by (rewrite T; discriminate).
  assert (Eb : en_building e = ex_hp_building) by exact (C67_building _ _ _ _ N eq_refl eq_refl).
  assert (PV : primary_volume (en_system e) = Some 2000) by exact (proj2 (proj2 (C52_parts _ _ _ N)) NI).
  assert (FT : give_at_least ex_hp_building 1 (primary_heaters (en_system e)) 150 100).
  { destruct (shipped_fitted pk (ex_sanco pk) ex_sanco_params e 2000 _ _ l eq_refl I TB N eq_refl eq_refl NI) as (h & di & EH & EW & d & ED & EX).
    rewrite Eb in ED. cbn in ED. apply ok_inj in ED. subst d. rewrite (EX 50 eq_refl ltac:(discriminate)) in EW. rewrite EH.
    destruct (sanco_gives l h I EW) as (c0 & C0 & C1).
    intros t oat inlet l0 EO EI F. cbn in EO, EI. apply ok_inj in EO, EI. subst oat inlet. inversion F as [|h' x hs' l' Fx F']; subst. destruct Fx as (c & Ec & Ex). inversion F'; subst.
    rewrite C0 in Ec. apply ok_inj in Ec. subst c. change (100 <= c0 + 0). lra. }
  destruct hp_windows as (W1 & W2 & W3).
  destruct (C77_completes pk (ex_sanco pk) ex_sanco_params e _ _ l 2000 "3day" 5 60 eq_refl I TB eq_refl N eq_refl) as (e' & r & SIM).
  - reflexivity.
  - intros ls h [Y _]. discriminate Y.
  - rewrite Eb. split; [discriminate|]. split; [discriminate|]. eexists. split; [reflexivity|]. split; left; discriminate.
  - left. reflexivity.
  - exact NI.
  - exact NM.
  - rewrite S2. intros v h Y. discriminate Y.
  - rewrite T. discriminate.
  - exists e, e', r. split; [reflexivity|]. split; [exact T|]. split; [exact SIM|].
    assert (NV : never_out 150 (qmin 2000 (2000 * (150 - 120) / (100 * steepness (type_of (en_system e))))) 5 r).
    { assert (BL : forall h, blended (wanted ex_hp_building h) 120 150 50 + 0 == wanted ex_hp_building h * (7 # 10)) by (intro h; unfold blended; field).
      assert (LE : forall i n, shortfall (fun h => blended (wanted ex_hp_building h) 120 150 50 + 0) (heated 100 60 150 50) i n <= shortfall (wanted ex_hp_building) (heated 100 60 150 50) i n).
      { intros i n. apply shortfall_less. intros k _. rewrite BL. specialize (W3 k). lra. }
      apply (C71_design_day (ex_sanco pk) ex_sanco_params e 5 60%Z e' r 2000 50 120 150 100 0 300 N); rewrite ?Eb, ?T; try assumption; try reflexivity; try discriminate.
      + intros ls [Y _]. discriminate Y.
      + left. reflexivity.
      + intros x J. cbn in J. repeat (destruct J as [<-|J]; [discriminate|]). destruct J.
      + unfold mains. rewrite Eb. reflexivity.
      + intros t x Y. cbn in Y. apply ok_inj in Y. subst x. reflexivity.
      + intros i n LI LN. eapply Qle_trans; [apply LE|exact (W2 i n LI LN)].
      + intros h _. change (ep_supply _) with 120. change (ep_storage _) with 150. change (ep_aq _) with (ep_aq (ex_hp "primary_no_recirc")). rewrite BL. specialize (W3 h). set (x := wanted ex_hp_building h) in *.
        assert (Z1 : x * (7 # 10) / 60 <= 2) by (apply qdiv_le_iff; [reflexivity|lra]). eapply Qle_trans; [apply Qplus_le_r; exact Z1|]. vm_compute. discriminate. }
    split; [exact (no_outage _ _ _ _ NV)|].
    pose proof (C77_energy_is_used pk (ex_sanco pk) ex_sanco_params e _ _ l "3day" 5 60 e' r 4320 1 2000 50 50 0 eq_refl I TB eq_refl ltac:(discriminate) N) as K. rewrite T, Eb in K.
    assert (G : heat_taken r 120 50 + heat_held (qz (Z.of_nat (length (sr_demand r))) * 0) 150 50 <= heat_held 2000 150 50 + (25 # 2) * (3412142 # 1000) * kwh_used r).
    { apply K; clear K; try assumption; try reflexivity; try discriminate.
      - left. reflexivity.
      - left. repeat split.
      - intros t x Y. cbn in Y. apply ok_inj in Y. subst x. discriminate.
      - intros t x Y. cbn in Y. apply ok_inj in Y. subst x. split; [split; discriminate|split; discriminate].
      - exists 50. split; [reflexivity|]. split; [split; discriminate|split; discriminate].
      - intros t avg x Y. pose proof (hp_loads _ _ _ Y). lra.
      - exact (no_outage _ _ _ _ NV). }
    unfold heat_held in G |- *. lra.
Qed.

(** The same with a swing tank, whose element's energy is counted too. *)
Theorem C77_swing_energy_is_used : forall pk dt p e code en l dur thr maxm e' r total iv vol tv el cold warm ret flow,
  da_reg dt = shipped pk -> In (code, en) (shipped pk) -> tabulated en l -> ep_model p = Some code -> (1 <= ep_num p)%Z ->
  eng_new dt p = Ok e -> type_of (en_system e) = SwingTank -> ep_volume p = Some vol -> 0 < vol ->
  second_tank (en_system e) = Some (tv, el) -> 0 < tv -> never_cools el -> lasts dur total iv ->
  ep_return p = Some ret -> ep_flow p = Some flow -> ret <= ep_supply p -> 0 <= flow ->
  warm < ep_supply p -> ep_supply p <= ep_storage p ->
  let b := en_building e in
  (forall t x, bd_oat b t iv = Ok x -> x <= 114) ->
  (forall t x, bd_inlet b t iv = Ok x -> ordinary_water x /\ cold <= x /\ x <= warm) ->
  (exists t, bd_design_inlet b = Ok (Some t) /\ ordinary_water t /\ cold <= t /\ t <= warm) ->
  (forall t avg x, bd_load b t iv avg = Ok x -> 0 <= x <= tv) ->
  eng_simulate e dur thr maxm = Ok (e', r) -> sr_outage r = 0%Z ->
  heat_taken r (ep_supply p) warm + loop_took r (loop_kbtuh (ep_supply p) ret flow)
  <= heat_held vol (ep_storage p) warm + (25 # 2) * (3412142 # 1000) * total_energy r
     + heat_held tv (ep_supply p + 8) (last_swing_temp r (ep_supply p + 8)).
Proof.
  intros pk dt p e code en l dur thr maxm e' r total iv vol tv el cold warm ret flow RG I TB EM NU H TY EV V0 S2 TV NC LA ER EF RS F0 WS SS b OA IW (td & ED & OD & T1 & T2) LD SIM NO.
  assert (NI : type_of (en_system e) <> InstantWH) by (rewrite TY; discriminate).
  assert (PV : primary_volume (en_system e) = Some vol) by (pose proof (proj2 (proj2 (C52_parts _ _ _ H)) NI) as PV; rewrite EV in PV; exact PV).
  refine (C91_swing_plant_energy dt p e dur thr maxm e' r total iv vol tv el cold warm ret flow (25 # 2) H TY PV V0 S2 TV LA ER EF RS F0 WS SS _ _ LD _ _ NC SIM NO).
  - intros t x Y. exact (proj2 (IW t x Y)).
  - intros di Y. cbv delta [b] in ED, Y. rewrite ED in Y. apply ok_inj in Y. subst di. unfold sim_inlet. destruct OD. destruct (Qeq_bool td 0) eqn:Z0; [apply Qeq_bool_iff in Z0; exfalso; lra|]. split; assumption.
  - discriminate.
  - exact (shipped_efficient pk dt p e code en l vol iv RG I TB EM NU H EV NI OA (fun t x Y => proj1 (IW t x Y)) (ex_intro _ td (conj ED OD))).
Qed.
Print Assumptions C77_swing_energy_is_used.

Definition ex_sanco_swing : eparams :=
  with_equipment (with_plant (ex_low "swing_tank") 2000 100 (Some 80) (Some 20)) 10 (Some "MODELS_SANCO2_43_R_SP"%string) (Some 100) (Some 80) (Some 20) None 1.

Example C77_swing_energy_case : let pk := fun _ => mkPkFiles (fun _ => None) (fun _ => None) [] [] 0 0 0 0 in
  exists e e' r, eng_new (ex_sanco pk) ex_sanco_swing = Ok e /\ type_of (en_system e) = SwingTank /\
  eng_simulate e "3day" 5 60 = Ok (e', r) /\ sr_outage r = 0%Z /\
  heat_taken r 120 50 + loop_took r (loop_kbtuh 120 110 3)
  <= heat_held 2000 150 50 + (25 # 2) * (3412142 # 1000) * total_energy r + heat_held 80 128 (last_swing_temp r 128).
Proof.
  intro pk. destruct (eng_new (ex_sanco pk) ex_sanco_swing) as [e|er] eqn:N; [|vm_compute in N; discriminate].
  assert (X : type_of (en_system e) = SwingTank /\ second_plant (en_system e) 80 20 /\
              forall v h, second_tank (en_system e) = Some (v, h) -> 0 < v /\ rated h /\ never_cools h).
  { vm_compute in N. injection N as <-. split; [reflexivity|]. split; [eexists; split; reflexivity|].
    cbn [en_system second_tank]. intros v h TH. injection TH as <- <-. split; [reflexivity|]. split; [apply nominal_rated; discriminate|].
    intros oat top c Y. cbn in Y. injection Y as <-. discriminate. }
  destruct X as (T & SP & S2). destruct (C77_case pk) as (l & I & TB & _).
  assert (NI : type_of (en_system e) <> InstantWH) by (rewrite T; discriminate). assert (NM : type_of (en_system e) <> MultiPassRTP) by (rewrite T; discriminate).
  assert (Eb : en_building e = ex_hp_building) by exact (C67_building _ _ _ _ N eq_refl eq_refl).
  assert (PV : primary_volume (en_system e) = Some 2000) by exact (proj2 (proj2 (C52_parts _ _ _ N)) NI).
  assert (FT : give_at_least ex_hp_building 1 (primary_heaters (en_system e)) 150 100).
  { destruct (shipped_fitted pk (ex_sanco pk) ex_sanco_swing e 2000 _ _ l eq_refl I TB N eq_refl eq_refl NI) as (h & di & EH & EW & d & ED & EX).
    rewrite Eb in ED. cbn in ED. apply ok_inj in ED. subst d. rewrite (EX 50 eq_refl ltac:(discriminate)) in EW. rewrite EH.
    destruct (sanco_gives l h I EW) as (c0 & C0 & C1).
    intros t oat inlet l0 EO EI F. cbn in EO, EI. apply ok_inj in EO, EI. subst oat inlet. inversion F as [|h' x hs' l' Fx F']; subst. destruct Fx as (c & Ec & Ex). inversion F'; subst.
    rewrite C0 in Ec. apply ok_inj in Ec. subst c. change (100 <= c0 + 0). lra. }
  destruct hp_windows as (W1 & W2 & W3).
  destruct (C77_completes pk (ex_sanco pk) ex_sanco_swing e _ _ l 2000 "3day" 5 60 eq_refl I TB eq_refl N eq_refl) as (e' & r & SIM).
  - reflexivity.
  - intros ls h [Y _]. discriminate Y.
  - rewrite Eb. split; [discriminate|]. split; [discriminate|]. eexists. split; [reflexivity|]. split; left; discriminate.
  - left. reflexivity.
  - exact NI.
  - exact NM.
  - intros v h Y. destruct (S2 v h Y) as (A1 & A2 & _). split; assumption.
  - intros _ t iv x Y. rewrite Eb in Y. cbn in Y. apply ok_inj in Y. subst x. discriminate.
  - exists e, e', r. split; [reflexivity|]. split; [exact T|]. split; [exact SIM|].
    assert (NV : never_out 150 (qmin 2000 (2000 * (150 - 120) / (100 * (28 # 10)))) 5 r).
    { apply (C76_design_day (ex_sanco pk) ex_sanco_swing e 5 60%Z e' r 2000 50 120 150 100 110 3 80 20 300 N); rewrite ?Eb; try assumption; try reflexivity; try discriminate.
      + intros ls [Y _]. discriminate Y.
      + split; discriminate.
      + intros x J. cbn in J. repeat (destruct J as [<-|J]; [discriminate|]). destruct J.
      + unfold mains. rewrite Eb. reflexivity.
      + intro t. exists 50. split; reflexivity.
      + intros h _. specialize (W3 h). set (x := wanted ex_hp_building h) in *.
        assert (Z1 : x / 60 <= 3) by (apply qdiv_le_iff; [reflexivity|lra]). eapply Qle_trans; [apply Qplus_le_r; exact Z1|]. vm_compute. discriminate. }
    split; [exact (no_outage _ _ _ _ NV)|]. destruct SP as (el & SP & _). destruct (S2 _ _ SP) as (_ & _ & NC).
    refine (C77_swing_energy_is_used pk (ex_sanco pk) ex_sanco_swing e _ _ l "3day" 5 60 e' r 4320 1 2000 80 el 50 50 110 3 eq_refl I TB eq_refl _ N T eq_refl _ SP _ NC _ eq_refl eq_refl _ _ _ _ _ _ _ _ SIM (no_outage _ _ _ _ NV)); rewrite ?Eb; try reflexivity; try discriminate.
    + left. repeat split.
    + intros t x Y. cbn in Y. apply ok_inj in Y. subst x. discriminate.
    + intros t x Y. cbn in Y. apply ok_inj in Y. subst x. split; [split; discriminate|split; discriminate].
    + exists 50. split; [reflexivity|]. split; [split; discriminate|split; discriminate].
    + exact hp_loads.
Qed.
