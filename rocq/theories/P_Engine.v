(** C51-C54: control schedules, schematic dispatch, the capacity query and the model listing. *)
From Coq Require Import Ascii.
From Verif Require Import Prelude M_StratifiedTank M_MixedTank M_EnergyTank M_Building L_Building M_Heater S_Heater L_Heater
  M_Sizing M_SimRun S_SimRun M_Step S_Step L_Step L_Step2 M_Swing M_MPRTP M_Engine S_Engine L_Engine L_Engine2 P_Sizing.
Open Scope Q_scope.

(** A constructed engine, used in the examples: a custom daily profile of 1000 gallons in a place with
    fixed outdoor air and mains temperatures. *)
Definition ex_data : data := mkData [] [] [] [] ex_lib [] (fun _ => 0).
Definition ex_params (schematic : string) (ls : option (list Z)) (lu_hours : Z) (lu_aq : option Q)
  (vol cap : option Q) : eparams :=
  mkParams (One None) (One (Some 1000))
    (CzDict [("design_oat_f"%string, Some 30); ("design_inlet_water_temp_f"%string, Some 50)])
    120 150 schematic None (Some (One ex_shape)) None 2 None 16 1 (1 # 2) (1 # 10) None None
    ls lu_hours None lu_aq None None None 1 (Some 110) (Some 3) None None 1 (175 # 100)
    vol cap (Some 80) (Some 20) None 1.
(** Shed from 17 to 20 o'clock. *)
Definition ex_shed_evening : list Z := repeat 1%Z 17 ++ [0; 0; 0]%Z ++ repeat 1%Z 4.

(** ** C51 Control schedule construction *)

(** The heaters of a constructed engine follow a 24-hour schedule that labels the hours as the 0/1
    list and the number of load-up hours say. *)
Theorem C51_schedule : forall dt p e h ls,
  eng_new dt p = Ok e -> In h (primary_heaters (en_system e)) -> given_schedule p ls ->
  exists sched, wh_schedule h = Some sched /\ length sched = 24%nat /\
    forall hour label, nth_error sched hour = Some label ->
      (label = "shed"%string <-> shed_hour ls hour) /\
      (label = "loadUp"%string <-> load_up_hour ls (ep_lu_hours p) hour) /\
      (label = "normal"%string <-> ~ shed_hour ls hour /\ ~ load_up_hour ls (ep_lu_hours p) hour) /\
      (label = "shed" \/ label = "loadUp" \/ label = "normal")%string.
Proof.
  intros dt p e h ls H I GS. destruct (engine_heaters _ _ _ H) as (sched & m & EC & F).
  destruct (proj1 (Forall_forall _ _) F h I) as [ES _]. exists sched. split; [exact ES|].
  destruct (controls_inv _ _ _ EC) as [([E|E] & _)|(ls' & GS' & EQ & _)]; [destruct GS; congruence|destruct GS; congruence|].
  rewrite <- (given_unique _ _ _ GS GS') in *. clear ls' GS'.
  pose proof (mapM_forall2 _ _ _ EQ) as F2. pose proof (eq_sym (mapM_length _ _ _ EQ)) as L. change (length hours24) with 24%nat in L.
  split; [exact (eq_sym L)|]. intros i k Ei. assert (Hi : (i < 24)%nat) by (rewrite L; apply nth_error_Some; congruence).
  destruct (forall2_nth _ _ _ F2 i (Z.of_nat i) (hours24_nth i Hi)) as (y & Ey & HL). assert (y = k) by congruence. subst y.
  pose proof (load_up_not_shed ls (ep_lu_hours p) i) as LN.
  destruct (label_cases _ _ _ _ HL) as [[-> S]|[[-> S]|[-> [S1 S2]]]].
  - repeat split; try discriminate; try tauto.
  - repeat split; try discriminate; try tauto.
  - repeat split; try discriminate; try tauto.
Qed.
Print Assumptions C51_schedule.

(** Without a schedule, or with an empty one, every hour is normal. *)
Theorem C51_no_schedule : forall dt p e h,
  eng_new dt p = Ok e -> In h (primary_heaters (en_system e)) -> (forall ls, ~ given_schedule p ls) ->
  wh_schedule h = Some (repeat "normal"%string 24) /\ exists c, wh_map h = Some [("normal"%string, c)].
Proof.
  intros dt p e h H I NG. destruct (engine_heaters _ _ _ H) as (sched & m & EC & F).
  destruct (proj1 (Forall_forall _ _) F h I) as [ES EM].
  destruct (controls_inv _ _ _ EC) as [(_ & -> & ->)|(ls' & GS' & _)]; [|exfalso; exact (NG _ GS')].
  split; [exact ES|]. eexists. exact EM.
Qed.
Print Assumptions C51_no_schedule.

(** A schedule is accepted exactly if it is absent, empty, or has at least 24 entries; a shorter one
    stops the construction of the engine. *)
Theorem C51_short_schedule : forall dt p ls,
  given_schedule p ls -> (length ls < 24)%nat -> forall e, eng_new dt p <> Ok e.
Proof.
  intros dt p ls GS L e H. destruct (engine_heaters _ _ _ H) as (sched & m & EC & F).
  destruct (controls_inv _ _ _ EC) as [([E|E] & _)|(ls' & GS' & EQ & _)]; [destruct GS; congruence|destruct GS; congruence|].
  rewrite <- (given_unique _ _ _ GS GS') in *. pose proof (mapM_forall2 _ _ _ EQ) as F2.
  destruct (forall2_nth _ _ _ F2 (length ls) _ (hours24_nth _ L)) as (y & _ & HL).
  rewrite label_short in HL by lia. discriminate.
Qed.
Print Assumptions C51_short_schedule.

Theorem C51_accepts : forall p,
  (exists sm, eng_controls p = Ok sm) <-> (forall ls, given_schedule p ls -> (24 <= length ls)%nat).
Proof.
  intro p. split.
  - intros ([sched m] & EC) ls GS. destruct (le_lt_dec 24 (length ls)) as [G|L]; [exact G|exfalso].
    destruct (controls_inv _ _ _ EC) as [([E|E] & _)|(ls' & GS' & EQ & _)]; [destruct GS; congruence|destruct GS; congruence|].
    rewrite <- (given_unique _ _ _ GS GS') in *. pose proof (mapM_forall2 _ _ _ EQ) as F2.
    destruct (forall2_nth _ _ _ F2 (length ls) _ (hours24_nth _ L)) as (y & _ & HL).
    rewrite label_short in HL by lia. discriminate.
  - intro H. unfold eng_controls. destruct (ep_ls p) as [[|v ls]|] eqn:E; [eexists; reflexivity| |eexists; reflexivity].
    assert (L : (24 <= length (v :: ls))%nat) by (apply H; split; [exact E|discriminate]).
    destruct (mapM_exists (hour_label (v :: ls) (ep_lu_hours p)) hours24) as (l & El).
    + intros x I. unfold hours24 in I. apply in_map_iff in I. destruct I as (h & <- & I). apply in_seq in I. apply label_total. lia.
    + rewrite El. eexists. reflexivity.
Qed.
Print Assumptions C51_accepts.

(** The settings of the three modes: missing ones fall back to the normal mode's, those to supply and
    storage temperature; a load-up setting exists exactly if a load-up aquastat and at least one
    load-up hour are asked for. *)
Theorem C51_settings : forall dt p e h ls,
  eng_new dt p = Ok e -> In h (primary_heaters (en_system e)) -> given_schedule p ls ->
  exists m normal shed on_t off_t, wh_map h = Some m /\
    defaulted (ep_on_t p) (ep_supply p) on_t /\ defaulted (ep_off_t p) (ep_storage p) off_t /\
    dict_get m "normal" = Some normal /\ dict_get m "shed" = Some shed /\
    settings normal (ep_aq p) on_t (ep_off_sensor p) off_t (ep_storage p) /\
    (exists a o, defaulted (ep_shed_aq p) (ep_aq p) a /\ defaulted (ep_shed_off p) (ep_off_sensor p) o /\
       settings shed a on_t o off_t (ep_storage p)) /\
    (forall c, dict_get m "loadUp" = Some c ->
       exists a o t, ep_lu_aq p = Some a /\ defaulted (ep_lu_off p) (ep_off_sensor p) o /\
         defaulted (ep_lu_off_t p) off_t t /\ settings c a on_t o t (ep_storage p)) /\
    (dict_get m "loadUp" <> None <-> ep_lu_aq p <> None /\ (0 < ep_lu_hours p)%Z).
Proof.
  intros dt p e h ls H I GS. destruct (engine_heaters _ _ _ H) as (sched & m & EC & F).
  destruct (proj1 (Forall_forall _ _) F h I) as [_ EM].
  destruct (controls_inv _ _ _ EC) as [([E|E] & _)|(ls' & GS' & EQ & normal & shed & lu & -> & -> & -> & LU)]; [destruct GS; congruence|destruct GS; congruence|].
  do 3 eexists. exists (or_default (ep_on_t p) (ep_supply p)), (or_default (ep_off_t p) (ep_storage p)).
  split; [exact EM|]. assert (D : forall x d, defaulted x d (or_default x d)) by (intros [v|] d; reflexivity).
  split; [apply D|]. split; [apply D|]. split; [reflexivity|]. split; [reflexivity|].
  split; [constructor; reflexivity|]. split; [do 2 eexists; split; [apply D|]; split; [apply D|]; constructor; reflexivity|].
  cbn [dict_get]. change (String.eqb "normal" "loadUp") with false. change (String.eqb "shed" "loadUp") with false. cbv iota.
  destruct LU as [[-> LU]|(P & a & Ea & ->)].
  - split; [discriminate|]. split; [intro C; exfalso; apply C; reflexivity|]. intros [A B]. destruct LU; [contradiction|lia].
  - cbn [dict_get]. change (String.eqb "loadUp" "loadUp") with true. cbv iota. split.
    + intros c Ec. injection Ec as <-. exists a. do 2 eexists. split; [exact Ea|]. split; [apply D|]. split; [apply D|]. constructor; reflexivity.
    + split; [intros _; split; [congruence|exact P]|discriminate].
Qed.
Print Assumptions C51_settings.

(** Every label used has settings when no load-up hour lacks a load-up aquastat. *)
Theorem C51_labelled : forall dt p e h, eng_new dt p = Ok e -> In h (primary_heaters (en_system e)) ->
  load_up_configured p -> scheduled h.
Proof.
  intros dt p e h H I LC. destruct (engine_heaters _ _ _ H) as (sched & m & EC & F).
  destruct (proj1 (Forall_forall _ _) F h I) as [ES EM]. exact (controls_scheduled _ _ _ _ EC LC ES EM).
Qed.
Print Assumptions C51_labelled.

(** A load-up hour without load-up aquastat: no simulation of the engine runs to its end. *)
Theorem C51_missing_load_up_raises : forall dt p e ls hour dur thr maxm e' r,
  eng_new dt p = Ok e -> primary_heaters (en_system e) <> [] ->
  given_schedule p ls -> (hour < 24)%nat -> load_up_hour ls (ep_lu_hours p) hour -> ep_lu_aq p = None ->
  eng_simulate e dur thr maxm = Ok (e', r) -> sr_stopped r = true.
Proof.
  intros dt p e ls hour dur thr maxm e' r H NE GS Hh LU NA HS. destruct (engine_heaters _ _ _ H) as (sched & m & EC & F).
  destruct (controls_inv _ _ _ EC) as [([E|E] & _)|(ls' & GS' & EQ & normal & shed & lu & EM & _ & _ & LUC)]; [destruct GS; congruence|destruct GS; congruence|].
  rewrite <- (given_unique _ _ _ GS GS') in *. pose proof (mapM_forall2 _ _ _ EQ) as F2.
  destruct (forall2_nth _ _ _ F2 hour _ (hours24_nth _ Hh)) as (k & Ek & HL).
  assert (K : k = "loadUp"%string).
  { destruct (label_cases _ _ _ _ HL) as [[_ S]|[[-> S]|[_ [_ S]]]]; [exfalso; exact (load_up_not_shed _ _ _ LU S)|reflexivity|contradiction]. }
  subst k. assert (EN : dict_get m "loadUp" = None).
  { destruct LUC as [[-> _]|(_ & a & Ea & _)]; [|congruence]. rewrite EM. reflexivity. }
  assert (R : forall hs, hs = primary_heaters (en_system e) -> run_by sched m hs).
  { intros [|h rest] E; [congruence|]. exists h, rest. split; [reflexivity|].
    exact (proj1 (Forall_forall _ _) F h ltac:(rewrite <- E; left; reflexivity)). }
  assert (TK : forall s, (en_system e = EPrimary (sys_dhw (en_system e)) s \/ (exists l x, en_system e = EParallel l x /\ s = ps_base x) \/
               (exists d a f, en_system e = ESprtp d a f s)) -> bs_tank s <> None).
  { intros s C. destruct (engine_assembled _ _ _ H) as (hs & vol & A).
    destruct C as [C|[(l & x & C & ->)|(d & a & f & C)]]; rewrite C in A; cbn in A.
    - destruct A as [_ ->]. discriminate.
    - destruct A as (_ & ? & ? & _ & _ & -> & _). discriminate.
    - destruct A as (_ & _ & _ & ->). discriminate. }
  unfold eng_simulate in HS. destruct (en_system e) as [d s|l s|w s|d ret flow s|x|d] eqn:ES; cbn [primary_heaters] in *.
  - destruct (bind_ok _ _ _ HS) as ([s1 r1] & E1 & H1). apply ok_inj in H1. apply pair_equal_spec in H1. destruct H1 as [_ <-].
    exact (missing_base sched m hour "loadUp" _ Hh Ek EN _ _ _ _ _ _ (conj (TK s ltac:(left; reflexivity)) (R _ eq_refl)) E1).
  - destruct (bind_ok _ _ _ HS) as ([s1 r1] & E1 & H1). apply ok_inj in H1. apply pair_equal_spec in H1. destruct H1 as [_ <-].
    exact (missing_parallel sched m hour "loadUp" _ Hh Ek EN _ _ _ _ _ _ (conj (TK (ps_base s) ltac:(right; left; exists l, s; auto)) (R _ eq_refl)) E1).
  - destruct (bind_ok _ _ _ HS) as ([s1 r1] & E1 & H1). apply ok_inj in H1. apply pair_equal_spec in H1. destruct H1 as [_ <-].
    exact (missing_swing sched m hour "loadUp" _ Hh Ek EN _ _ _ _ _ _ (R _ eq_refl) E1).
  - destruct (bind_ok _ _ _ HS) as ([s1 r1] & E1 & H1). apply ok_inj in H1. apply pair_equal_spec in H1. destruct H1 as [_ <-].
    exact (missing_sprtp sched m hour "loadUp" _ Hh Ek EN _ _ _ _ _ _ _ _ (conj (TK s ltac:(right; right; exists d, ret, flow; reflexivity)) (R _ eq_refl)) E1).
  - destruct (bind_ok _ _ _ HS) as ([s1 r1] & E1 & H1). apply ok_inj in H1. apply pair_equal_spec in H1. destruct H1 as [_ <-].
    exact (missing_mp sched m hour "loadUp" _ Hh Ek EN _ _ _ _ _ _ (R _ eq_refl) E1).
  - exfalso. apply NE. reflexivity.
Qed.
Print Assumptions C51_missing_load_up_raises.

(** Every constructed engine that stores water has a heater, except pre-sized ones asked for no heater. *)
Theorem C51_has_heaters : forall dt p e, eng_new dt p = Ok e -> type_of (en_system e) <> InstantWH ->
  (ep_volume p = None \/ ep_model p <> None \/ (1 <= ep_num p)%Z) -> primary_heaters (en_system e) <> [].
Proof.
  intros dt p e H NI C. destruct (new_inv _ _ _ H) as (b & sched & m & _ & EC & [(vol & hs & EV & EH & A & _)|(EV & _ & [(d & E & _)|(c & v & hs & _ & _ & (h & -> & _) & A & _)])]).
  - destruct (assembled_parts _ _ _ _ _ A) as (_ & P & _). destruct (P NI) as [-> _]. destruct C as [C|[C|C]]; [congruence| |].
    + unfold eng_heaters in EH. destruct (ep_model p); [|contradiction]. destruct (bind_ok _ _ _ EH) as (di & _ & E1). destruct (bind_ok _ _ _ E1) as (pm & _ & E2).
      apply ok_inj in E2. subst hs. discriminate.
    + unfold eng_heaters in EH. destruct (ep_model p).
      * destruct (bind_ok _ _ _ EH) as (di & _ & E1). destruct (bind_ok _ _ _ E1) as (pm & _ & E2). apply ok_inj in E2. subst hs. discriminate.
      * destruct (ep_capacity p); [|discriminate]. destruct (bind_ok _ _ _ EH) as (x & _ & E1). apply ok_inj in E1. subst hs.
        destruct (Z.to_nat (ep_num p)) eqn:EN; [lia|discriminate].
  - rewrite E in NI. cbn in NI. contradiction.
  - destruct (assembled_parts _ _ _ _ _ A) as (_ & P & _). destruct (P NI) as [-> _]. discriminate.
Qed.
Print Assumptions C51_has_heaters.

(** Two load-up hours before an evening shed, without load-up aquastat: the engine is built. *)
Example C51_case : exists e, eng_new ex_data (ex_params "sprtp" (Some ex_shed_evening) 2 None (Some 500) (Some 100)) = Ok e /\
  primary_heaters (en_system e) <> [] /\ load_up_hour ex_shed_evening 2 15 /\ load_up_hour ex_shed_evening 2 16 /\
  ~ load_up_hour ex_shed_evening 2 14 /\ shed_hour ex_shed_evening 17 /\ ~ shed_hour ex_shed_evening 20.
Proof.
  assert (FS : first_shed ex_shed_evening 17).
  { split; [reflexivity|]. intros j L. do 17 (destruct j as [|j]; [vm_compute; discriminate|]). lia. }
  eexists. split; [vm_compute; reflexivity|]. split; [discriminate|].
  split; [exists 17%nat; split; [exact FS|lia]|]. split; [exists 17%nat; split; [exact FS|lia]|].
  split; [|split; [reflexivity|vm_compute; discriminate]]. intros (k & [K1 K2] & L1 & L2).
  destruct (Nat.lt_trichotomy k 17) as [L|[->|L]]; [exact (proj2 FS k L K1)|lia|exact (K2 17%nat L (proj1 FS))].
Qed.
Print Assumptions C51_case.
