(** C34, C65, C77, simulated plants of models shipped with pickled interpolators. *)
From Verif Require Import Prelude M_StratifiedTank M_Building S_Building L_Building M_Heater S_Heater L_Heater M_Sizing S_Sizing M_SimRun S_SimRun L_SimRun M_Step S_Step L_Step L_Step2 L_Step6
  M_Swing M_MPRTP S_MPRTP M_Engine S_Engine S_EngineRun S_EngineSize L_Engine L_Engine2 L_Engine6 L_Engine8 D_Models S_Shipped L_Shipped P_Engine P_Engine2 P_Engine3 P_Engine6 P_Shipped S_Lasts L_Lasts S_Audit S_Audit2 L_Audit L_Audit2 L_Audit3 L_ShippedRun P_Sizing P_Engine7 P_Lasts P_Lasts2 P_Audit P_Audit2 P_Audit3 P_ShippedRun P_Pickled.
Open Scope Q_scope.

(** The equipment of a pre-sized plant of a model with pickled files. *)
Lemma pickled_fitted dt p e vol code en f : NoDup (map fst (da_reg dt)) -> In (code, en) (da_reg dt) -> re_pkl en = Some f ->
  eng_new dt p = Ok e -> ep_volume p = Some vol -> ep_model p = Some code -> type_of (en_system e) <> InstantWH ->
  exists h two di, primary_heaters (en_system e) = [h] /\
    wh_pm h = Some (PmPkl (mkPkMap (pf_out f) (pf_in f) (pf_oats f) (pf_grid f) (pf_inlet_max f) (pf_out_high f) (pf_in_high f) (pf_out_low f) (ep_num p) two
                             (re_hx en) (re_hx_increase en) None di)).
Proof.
  intros ND I TB H EV EM NI. pose proof (C52_presized_heaters _ _ _ _ H EV NI) as K. rewrite EM in K. destruct K as (d & x & pm & h & ED & EX & EP & EH & EW).
  unfold pm_from_model in EP. rewrite (in_dict _ _ _ ND I) in EP. rewrite TB in EP. apply ok_inj in EP.
  eexists h, _, x. split; [exact EH|]. rewrite EW, <- EP. reflexivity.
Qed.

(** Any shipped model, tabulated or pickled: the run completes. *)
Theorem C65_shipped_models : forall pk dt p e code en vol dur thr maxm,
  da_reg dt = shipped pk -> In (code, en) (shipped pk) -> (forall f, re_pkl en = Some f -> gridded (pf_oats f) (pf_grid f)) -> ep_model p = Some code ->
  eng_new dt p = Ok e -> ep_volume p = Some vol -> 0 < vol -> load_up_configured p -> complete (en_building e) ->
  dur = "3day"%string \/ dur = "annual"%string ->
  type_of (en_system e) <> InstantWH -> type_of (en_system e) <> MultiPassRTP ->
  (forall v h, second_tank (en_system e) = Some (v, h) -> 0 < v /\ rated h) ->
  (type_of (en_system e) = SwingTank -> forall t iv x, bd_inlet (en_building e) t iv = Ok x -> x <= ep_supply p) ->
  exists e' r, eng_simulate e dur thr maxm = Ok (e', r).
Proof.
  intros pk dt p e code en vol dur thr maxm RG I GR EM H EV V0 LU CB D NI NM ST SW.
  destruct (C54_shipped pk) as (_ & ND & _).
  destruct (re_pkl en) as [f|] eqn:EP.
  - pose proof ND as ND'. pose proof I as I'. rewrite <- RG in ND', I'. destruct (pickled_fitted dt p e vol code en f ND' I' EP H EV EM NI) as (h & two & di & EH & EW).
    apply (C65_completes dt p e dur thr maxm H LU CB D NM).
    + intros _. exists vol. split; [|exact V0]. pose proof (proj2 (proj2 (C52_parts _ _ _ H)) NI) as PV. rewrite EV in PV. exact PV.
    + rewrite EH. constructor; [|constructor]. intros oat out inl. unfold wh_capacity, wh_power. rewrite EW. cbn [pm_capacity pm_power].
      match goal with |- context[pk_capacity ?m _ _ _] => destruct (C34_always_answers m oat inl out (GR f eq_refl) (or_introl eq_refl)) as (kw & cap & -> & ->) end.
      eexists _, _. split; reflexivity.
    + exact ST.
    + exact SW.
    + intro X. exfalso. exact (NI X).
  - destruct (re_perfmap en) as [l|] eqn:EL.
    + exact (C77_completes pk dt p e code en l vol dur thr maxm RG I (conj EP EL) EM H EV V0 LU CB D NI NM ST SW).
    + exfalso. pose proof (C52_presized_heaters _ _ _ _ H EV NI) as K. rewrite EM in K. destruct K as (d & x & pm & h & _ & _ & EQ & _).
      rewrite RG in EQ. unfold pm_from_model in EQ. rewrite (in_dict _ _ _ ND I), EP, EL in EQ. discriminate.
Qed.
Print Assumptions C65_shipped_models.

(** With pickled files that claim no heat short of the power, in any registry, no recorded step and no run does. *)
Theorem C34_simulated : forall dt p e code en f vol dur thr maxm e' r,
  NoDup (map fst (da_reg dt)) -> In (code, en) (da_reg dt) -> re_pkl en = Some f -> gridded (pf_oats f) (pf_grid f) -> honest f ->
  ep_model p = Some code -> (0 <= ep_num p)%Z -> eng_new dt p = Ok e -> ep_volume p = Some vol ->
  type_of (en_system e) <> InstantWH ->
  eng_simulate e dur thr maxm = Ok (e', r) ->
  (forall i k, nth_error (sr_output r) i = Some k -> exists w, nth_error (sr_power r) i = Some w /\ 0 <= or0 w /\ (3412142 # 1000000) * or0 w <= k) /\
  0 <= kwh_used r /\ (3412142 # 1000) * kwh_used r <= heat_made r.
Proof.
  intros dt p e code en f vol dur thr maxm e' r ND I EP GR (HF1 & HF2 & HF3 & HF4) EM NU H EV NI SIM.
  destruct (pickled_fitted dt p e vol code en f ND I EP H EV EM NI) as (h & two & di & EH & EW).
  destruct (C65_reported _ _ _ _ _ _ _ _ H SIM) as (total & iv & outs & LA & _).
  set (Rel := fun x w => 0 <= w /\ (3412142 # 1000000) * w <= x).
  assert (K : forall i k, nth_error (sr_output r) i = Some k -> exists w, nth_error (sr_power r) i = Some w /\ Rel k (or0 w)).
  { refine (run_related Rel dt p e dur thr maxm e' r total iv _ _ _ H NI LA _ SIM).
    - split; lra.
    - intros x w y v [A1 A2] [B1 B2]; split; lra.
    - intros x y w v E1 E2 [A1 A2]; split; lra.
    - intros h0 t oat inl c IH EO EI EC. rewrite EH in IH. destruct IH as [<-|[]]. unfold wh_capacity, wh_power in *. rewrite EW in *. cbn [pm_capacity pm_power] in *.
      match goal with |- context[pk_power ?m _ _ _] => destruct (C34_always_answers m oat inl (ep_storage p) GR (or_introl eq_refl)) as (kw & cap & P1 & P2);
        pose proof (C34_never_short m (Some oat) inl (ep_storage p) kw cap HF1 HF2 HF3 HF4 eq_refl NU P1 P2) as P3 end.
      rewrite P2 in EC. cbn [bind] in EC. apply ok_inj in EC. subst c. rewrite P1. cbn [bind]. eexists. split; [reflexivity|]. exact P3. }
  split; [exact K|]. exact (run_sum dt p e dur thr maxm e' r H SIM K).
Qed.
Print Assumptions C34_simulated.

(** A multi-pass plant of a shipped table model in air no hotter than 114 F, or of honest pickled files: every step is
    possible, and a run that fails does so with a division by zero. *)
Theorem C65_shipped_multi_pass : forall pk dt p e code en vol ret flow lo, da_reg dt = shipped pk -> In (code, en) (shipped pk) -> ep_model p = Some code -> (1 <= ep_num p)%Z ->
  (forall f, re_pkl en = Some f -> gridded (pf_oats f) (pf_grid f) /\ honest f) ->
  (forall t iv x, bd_oat (en_building e) t iv = Ok x -> x <= 114) ->
  (exists t, bd_design_inlet (en_building e) = Ok (Some t) /\ ordinary_water t) ->
  eng_new dt p = Ok e -> type_of (en_system e) = MultiPassRTP ->
  load_up_configured p -> complete (en_building e) -> ep_volume p = Some vol -> 0 < vol ->
  ep_return p = Some ret -> ep_flow p = Some flow -> 0 <= flow -> ret <= ep_supply p -> ep_supply p < ep_storage p ->
  (forall t iv x, (0 < iv)%Z -> bd_load (en_building e) t iv false = Ok x -> 0 <= x) ->
  (forall t iv x, bd_inlet (en_building e) t iv = Ok x -> lo <= x /\ x <= ret /\ x < ep_supply p) ->
  (forall di, bd_design_inlet (en_building e) = Ok di -> lo <= sim_inlet di < ep_storage p) ->
  forall dur thr maxm, dur = "3day"%string \/ dur = "annual"%string ->
  match eng_simulate e dur thr maxm with
  | Ok (e', r) => exists total iv outs, lasts dur total iv /\ reported (ep_supply p) thr maxm total iv outs r /\
      forall i o, nth_error outs i = Some o -> mp_possible (en_building e) (ep_storage p) vol (Z.of_nat i) iv o
  | Err x => x = ZeroDivisionError
  end.
Proof.
  intros pk dt p e code en vol ret flow lo RG I EM NU FI OA DW H T LU CB EV VP ER EF F0 RS SS LD MA ST dur thr maxm D.
  assert (NI : type_of (en_system e) <> InstantWH) by (rewrite T; discriminate). destruct (C54_shipped pk) as (_ & ND & _).
  assert (PV : primary_volume (en_system e) = Some vol) by (pose proof (proj2 (proj2 (C52_parts _ _ _ H)) NI) as PV; rewrite EV in PV; exact PV).
  refine (C65_multi_pass dt p e vol ret flow lo H T LU CB PV VP _ ER EF F0 RS SS LD MA ST dur thr maxm D).
  destruct (re_pkl en) as [f|] eqn:EP.
  - destruct (FI f eq_refl) as [GR (HF1 & HF2 & HF3 & HF4)]. rewrite <- RG in ND, I.
    destruct (pickled_fitted dt p e vol code en f ND I EP H EV EM NI) as (h & two & di & EH & EW). rewrite EH. constructor; [|constructor].
    intros t iv oat out BO. unfold wh_capacity, wh_power. rewrite EW. cbn [pm_capacity pm_power].
    match goal with |- context[pk_power ?m _ _ _] => destruct (C34_always_answers m oat None out GR (or_introl eq_refl)) as (kw & cap & P1 & P2);
      pose proof (C34_never_short m (Some oat) None out kw cap HF1 HF2 HF3 HF4 eq_refl ltac:(cbn; lia) P1 P2) as P3 end.
    rewrite P1, P2. cbn [bind]. eexists _, _. split; [reflexivity|]. split; [|reflexivity]. intros x E. injection E as <-. lra.
  - destruct (re_perfmap en) as [l|] eqn:EL.
    + destruct (shipped_fitted _ _ _ _ _ _ _ _ RG I (conj EP EL) H EV EM NI) as (h & di & EH & EW & d & ED & EX).
      destruct DW as (td & ED' & OD). rewrite ED in ED'. apply ok_inj in ED'. subst d.
      assert (DI : di = td). { apply EX; [reflexivity|]. destruct OD. lra. }
      destruct (shipped_tables_good _ _ _ _ I (conj EP EL)) as [G L2]. destruct OD as [D1 D2]. rewrite EH. constructor; [|constructor].
      intros t iv oat out BO. unfold wh_capacity, wh_power. rewrite EW. cbn [pm_capacity pm_power].
      destruct (good_map_runs (mkHpMap l (ep_num p) (ends_with code "MP") None di) oat None out) as (kw & cap & P1 & P2 & P3 & P4 & _);
        [exact G|exact L2|exact NU|cbn; rewrite DI; exact D1|cbn; rewrite DI; exact D2|discriminate|cbn; rewrite DI; exact D1|cbn; rewrite DI; exact D2|exact (OA _ _ _ BO)|].
      rewrite P1, P2. cbn [bind]. eexists _, _. split; [reflexivity|]. split; [|reflexivity]. intros x E. injection E as <-. unfold w_to_kbtuh in P4. lra.
    + exfalso. pose proof (C52_presized_heaters _ _ _ _ H EV NI) as K. rewrite EM in K. destruct K as (d & x & pm & h & _ & _ & EQ & _).
      rewrite RG in EQ. unfold pm_from_model in EQ. rewrite (in_dict _ _ _ ND I), EP, EL in EQ. discriminate.
Qed.
Print Assumptions C65_shipped_multi_pass.

(** ** A case: a model with pickled files over a grid with a gap, on the plant of [C77_simulated_case]. *)
Definition ex_files : pk_files :=
  mkPkFiles (fun a => match a with [i; o; t] => if Qeq_bool i 80 then Some (12 + qmax 0 t / 10) else None | _ => None end)
            (fun a => match a with [i; o; t] => if Qeq_bool i 80 then Some 4 else None | _ => None end)
            [20; 60; 100] [[(40, [120; 140]); (80, [120; 140])]; [(80, [120; 140])]; []] 120 20 5 8.
Definition ex_pickled : data := mkData [] [] [] [] ex_lib (shipped (fun _ => ex_files)) (fun _ => 0).
Definition ex_pickled_params : eparams :=
  with_equipment (with_plant (ex_low "primary_no_recirc") 2000 100 (Some 80) (Some 20)) 2 (Some "MODELS_ColmacCxA_10_VFD_45_Hz_C_SP"%string) (Some 100) (Some 80) (Some 20) None 1.

Lemma ex_files_good : gridded (pf_oats ex_files) (pf_grid ex_files) /\ honest ex_files.
Proof.
  split.
  - split; [discriminate|]. split; [reflexivity|]. cbn. repeat constructor; discriminate.
  - split; [|repeat split; discriminate]. intros a o i. cbn. destruct a as [|x [|y [|t [|]]]]; try discriminate. destruct (Qeq_bool x 80); [|discriminate].
    intros E1 E2. injection E1 as <-. injection E2 as <-. pose proof (qmax_l 0 t). split; [lra|]. apply (Qle_trans _ 12); [discriminate|]. assert (0 <= qmax 0 t / 10) by (apply Qle_shift_div_l; lra). lra.
Qed.

Example C34_simulated_case : exists e e' r, eng_new ex_pickled ex_pickled_params = Ok e /\ type_of (en_system e) = PrimaryNoRecirc /\
  eng_simulate e "annual" 5 60 = Ok (e', r) /\ 0 <= kwh_used r /\ (3412142 # 1000) * kwh_used r <= heat_made r.
Proof.
  destruct (eng_new ex_pickled ex_pickled_params) as [e|er] eqn:N; [|vm_compute in N; discriminate].
  assert (X : type_of (en_system e) = PrimaryNoRecirc /\ second_tank (en_system e) = None) by (vm_compute in N; injection N as <-; split; reflexivity).
  destruct X as (T & S2). destruct ex_files_good as [GR HO].
  assert (NI : type_of (en_system e) <> InstantWH) by (rewrite T; discriminate). assert (NM : type_of (en_system e) <> MultiPassRTP) by (rewrite T; discriminate).
  assert (Eb : en_building e = ex_hp_building) by exact (C67_building _ _ _ _ N eq_refl eq_refl).
  assert (G : exists en, dict_get (shipped (fun _ => ex_files)) "MODELS_ColmacCxA_10_VFD_45_Hz_C_SP" = Some en /\ re_pkl en = Some ex_files) by (eexists; split; reflexivity).
  destruct G as (en & EG & EP).
  assert (I : In ("MODELS_ColmacCxA_10_VFD_45_Hz_C_SP"%string, en) (shipped (fun _ => ex_files))).
  { revert EG. generalize (shipped (fun _ => ex_files)). induction r as [|[k v] r IH]; cbn [dict_get]; [discriminate|].
    destruct (String.eqb _ k) eqn:E; intro H; [apply String.eqb_eq in E; subst k; injection H as ->; left; reflexivity|right; exact (IH H)]. }
  destruct (C65_shipped_models (fun _ => ex_files) ex_pickled ex_pickled_params e _ en 2000 "annual" 5 60 eq_refl I) with (2 := @eq_refl (option string) (ep_model ex_pickled_params)) (3 := N) as (e' & r & SIM).
  - intros f E. rewrite EP in E. injection E as <-. exact GR.
  - reflexivity.
  - reflexivity.
  - intros ls h [Y _]. discriminate Y.
  - rewrite Eb. split; [discriminate|]. split; [discriminate|]. eexists. split; [reflexivity|]. split; left; discriminate.
  - right. reflexivity.
  - exact NI.
  - exact NM.
  - rewrite S2. intros v h Y. discriminate Y.
  - rewrite T. discriminate.
  - exists e, e', r. split; [reflexivity|]. split; [exact T|]. split; [exact SIM|].
    refine (proj2 (C34_simulated ex_pickled ex_pickled_params e _ en ex_files 2000 "annual" 5 60 e' r _ I EP GR HO eq_refl _ N eq_refl NI SIM)); [exact (proj1 (proj2 (C54_shipped _)))|discriminate].
Qed.

Definition ex_sanco_mp : eparams :=
  with_equipment (with_plant (ex_low "mprtp") 2000 100 (Some 80) (Some 20)) 10 (Some "MODELS_SANCO2_43_R_SP"%string) (Some 100) (Some 80) (Some 20) None 1.

Example C65_shipped_multi_pass_case : forall pk, exists e, eng_new (ex_sanco pk) ex_sanco_mp = Ok e /\ type_of (en_system e) = MultiPassRTP /\
  match eng_simulate e "annual" 5 60 with
  | Ok (e', r) => exists total iv outs, lasts "annual" total iv /\ reported 120 5 60 total iv outs r /\
      forall i o, nth_error outs i = Some o -> mp_possible (en_building e) 150 2000 (Z.of_nat i) iv o
  | Err x => x = ZeroDivisionError
  end.
Proof.
  intro pk. destruct (eng_new (ex_sanco pk) ex_sanco_mp) as [e|er] eqn:N; [|vm_compute in N; discriminate].
  assert (T : type_of (en_system e) = MultiPassRTP) by (vm_compute in N; injection N as <-; reflexivity).
  destruct (C77_case pk) as (l & I & TB & _). exists e. split; [reflexivity|]. split; [exact T|].
  assert (Eb : en_building e = ex_hp_building) by exact (C67_building _ _ _ _ N eq_refl eq_refl).
  refine (C65_shipped_multi_pass pk (ex_sanco pk) ex_sanco_mp e _ _ 2000 110 3 50 eq_refl I eq_refl _ _ _ _ N T _ _ eq_refl _ eq_refl eq_refl _ _ _ _ _ _ "annual"%string 5 60 _); rewrite ?Eb; try discriminate.
  - intros t iv x Y. cbn in Y. apply ok_inj in Y. subst x. discriminate.
  - exists 50. split; [reflexivity|split; discriminate].
  - intros ls h [Y _]. discriminate Y.
  - split; [discriminate|]. split; [discriminate|]. eexists. split; [reflexivity|]. split; left; discriminate.
  - reflexivity.
  - cbn. lra.
  - intros t iv x Piv X. refine (daily_nonneg _ false t iv x _ _ _ X); [discriminate| |lia].
    intros y Y. cbn in Y. repeat (destruct Y as [<-|Y]; [discriminate|]). destruct Y.
  - intros t iv x Y. cbn in Y. apply ok_inj in Y. subst x. cbn. repeat split; lra.
  - intros di Y. cbn in Y. apply ok_inj in Y. subst di. cbn. split; lra.
  - right. reflexivity.
Qed.
