From Coq Require Import Ascii.
From Verif Require Import Prelude M_StratifiedTank M_MixedTank M_EnergyTank M_Building L_Building M_Heater S_Heater L_Heater
  M_Sizing M_SimRun S_SimRun L_SimRun M_Step S_Step L_Step L_Step2 L_Step3 L_Step4 L_Step6 M_Swing M_MPRTP M_Engine S_Engine.
Open Scope Q_scope.

(** ** Schedules *)

Lemma first_zero_some ls : forall i k, first_zero i ls = Some k <-> exists n, k = (i + Z.of_nat n)%Z /\ first_shed ls n.
Proof.
  induction ls as [|v ls IH]; intros i k; cbn [first_zero].
  - split; [discriminate|]. intros (n & _ & H & _). unfold shed_hour in H. destruct n; discriminate.
  - destruct (v =? 0)%Z eqn:E.
    + apply Z.eqb_eq in E. subst v. split.
      * intro H. injection H as <-. exists O. split; [lia|]. split; [reflexivity|]. intros j L. lia.
      * intros (n & -> & H1 & H2). destruct n as [|n]; [f_equal; lia|]. exfalso. apply (H2 O ltac:(lia)). reflexivity.
    + apply Z.eqb_neq in E. rewrite IH. split.
      * intros (n & -> & H1 & H2). exists (S n). split; [lia|]. split; [exact H1|]. intros [|j] L; [unfold shed_hour; cbn; congruence|].
        apply (H2 j). lia.
      * intros ([|n] & -> & H1 & H2); [unfold shed_hour in H1; cbn in H1; congruence|]. exists n. split; [lia|]. split; [exact H1|].
        intros j L C. apply (H2 (S j) ltac:(lia)). exact C.
Qed.

Lemma label_cases ls n h lab : hour_label ls n (Z.of_nat h) = Ok lab ->
  (lab = "shed"%string /\ shed_hour ls h) \/
  (lab = "loadUp"%string /\ load_up_hour ls n h) \/
  (lab = "normal"%string /\ ~ shed_hour ls h /\ ~ load_up_hour ls n h).
Proof.
  unfold hour_label. intro H. destruct (bind_ok _ _ _ H) as (v & Ev & H1).
  apply py_nth_nonneg_inv in Ev; [|lia]. rewrite Nat2Z.id in Ev.
  destruct (v =? 0)%Z eqn:E0.
  - apply Z.eqb_eq in E0. subst v. apply ok_inj in H1. left. split; [congruence|exact Ev].
  - apply Z.eqb_neq in E0. assert (NS : ~ shed_hour ls h) by (unfold shed_hour; congruence). right.
    destruct (first_zero 0 ls) as [k|] eqn:EF.
    + pose proof (proj1 (first_zero_some ls 0%Z k) EF) as (m & -> & FS).
      destruct ((0 <? n)%Z && (0 + Z.of_nat m - n <=? Z.of_nat h)%Z && (Z.of_nat h <? 0 + Z.of_nat m)%Z)%bool eqn:C.
      * left. apply ok_inj in H1. split; [congruence|]. apply andb_true_iff in C. destruct C as [C C3]. apply andb_true_iff in C.
        destruct C as [C1 C2]. apply Z.ltb_lt in C3. apply Z.leb_le in C2. exists m. split; [exact FS|]. lia.
      * right. apply ok_inj in H1. split; [congruence|]. split; [exact NS|]. intros (m' & FS' & L1 & L2).
        assert (m' = m).
        { pose proof (proj2 (first_zero_some ls 0%Z (0 + Z.of_nat m')%Z) (ex_intro _ m' (conj eq_refl FS'))) as Q1. rewrite EF in Q1.
          injection Q1. lia. }
        subst m'. rewrite (proj2 (Z.ltb_lt 0 n)) in C by lia. rewrite (proj2 (Z.leb_le _ _)) in C by lia.
        rewrite (proj2 (Z.ltb_lt _ _)) in C by lia. discriminate.
    + right. apply ok_inj in H1. split; [congruence|]. split; [exact NS|]. intros (m & FS & _).
      rewrite (proj2 (first_zero_some ls 0%Z (0 + Z.of_nat m)%Z) (ex_intro _ m (conj eq_refl FS))) in EF. discriminate.
Qed.

Lemma load_up_not_shed ls n h : load_up_hour ls n h -> ~ shed_hour ls h.
Proof. intros (k & (_ & F) & L & _). apply F. exact L. Qed.

Lemma label_total ls n h : (h < length ls)%nat -> exists lab, hour_label ls n (Z.of_nat h) = Ok lab.
Proof.
  intro L. unfold hour_label. destruct (nth_error ls h) as [v|] eqn:E; [|apply nth_error_None in E; lia].
  rewrite (py_nth_nonneg ls (Z.of_nat h) v ltac:(lia)) by (rewrite Nat2Z.id; exact E). cbn [bind].
  destruct (v =? 0)%Z; [eexists; reflexivity|]. destruct (first_zero 0 ls); [|eexists; reflexivity].
  destruct (_ && _ && _)%bool; eexists; reflexivity.
Qed.

Lemma label_short ls n h : (length ls <= h)%nat -> hour_label ls n (Z.of_nat h) = Err IndexError.
Proof.
  intro L. unfold hour_label, py_nth. replace (Z.of_nat h <? 0)%Z with false by (symmetry; apply Z.ltb_ge; lia).
  replace (Z.of_nat (length ls) <=? Z.of_nat h)%Z with true by (symmetry; apply Z.leb_le; lia).
  rewrite orb_true_r. reflexivity.
Qed.

Lemma hours24_nth h : (h < 24)%nat -> nth_error hours24 h = Some (Z.of_nat h).
Proof.
  intro L. unfold hours24. rewrite nth_error_map.
  assert (E : nth_error (seq 0 24) h = Some h).
  { rewrite (nth_error_nth' (seq 0 24) 0%nat) by (rewrite seq_length; exact L). rewrite seq_nth by exact L. reflexivity. }
  rewrite E. reflexivity.
Qed.

Lemma forall2_nth {A B} (R : A -> B -> Prop) l r : Forall2 R l r -> forall i x, nth_error l i = Some x ->
  exists y, nth_error r i = Some y /\ R x y.
Proof.
  intro F. induction F as [|a b l r H F IH]; intros [|i] x E; cbn in E; try discriminate.
  - injection E as <-. exists b. split; [reflexivity|exact H].
  - exact (IH i x E).
Qed.

(** What the control map contains. *)
Lemma controls_inv p sched m : eng_controls p = Ok (sched, m) ->
  (ep_ls p = None \/ ep_ls p = Some []) /\ sched = repeat "normal"%string 24 /\
    m = [("normal"%string, mkControls (ep_aq p) (or_default (ep_on_t p) (ep_supply p)) (ep_off_sensor p)
                             (or_default (ep_off_t p) (ep_storage p)) (ep_storage p))] \/
  exists ls, given_schedule p ls /\ mapM (hour_label ls (ep_lu_hours p)) hours24 = Ok sched /\
    exists normal shed lu, m = ("normal"%string, normal) :: ("shed"%string, shed) :: lu /\
      normal = mkControls (ep_aq p) (or_default (ep_on_t p) (ep_supply p)) (ep_off_sensor p)
                 (or_default (ep_off_t p) (ep_storage p)) (ep_storage p) /\
      shed = mkControls (or_default (ep_shed_aq p) (ep_aq p)) (or_default (ep_on_t p) (ep_supply p))
                    (or_default (ep_shed_off p) (ep_off_sensor p)) (or_default (ep_off_t p) (ep_storage p)) (ep_storage p) /\
      ((lu = [] /\ (ep_lu_aq p = None \/ (ep_lu_hours p <= 0)%Z)) \/
       (0 < ep_lu_hours p)%Z /\ exists a, ep_lu_aq p = Some a /\
         lu = [("loadUp"%string, mkControls a (or_default (ep_on_t p) (ep_supply p)) (or_default (ep_lu_off p) (ep_off_sensor p))
                          (or_default (ep_lu_off_t p) (or_default (ep_off_t p) (ep_storage p))) (ep_storage p))]).
Proof.
  unfold eng_controls. destruct (ep_ls p) as [[|v ls]|] eqn:EL; intro H.
  - left. apply ok_inj in H. apply pair_equal_spec in H. destruct H as [<- <-]. auto.
  - right. destruct (bind_ok _ _ _ H) as (s & Es & H1). clear H. apply ok_inj in H1. apply pair_equal_spec in H1. destruct H1 as [<- <-].
    exists (v :: ls). split; [split; [exact EL|discriminate]|]. split; [exact Es|]. do 3 eexists. split; [reflexivity|].
    split; [reflexivity|]. split; [reflexivity|].
    destruct (ep_lu_aq p) as [a|]; [|left; auto]. destruct (0 <? ep_lu_hours p)%Z eqn:E.
    + right. apply Z.ltb_lt in E. split; [exact E|]. exists a. auto.
    + left. apply Z.ltb_ge in E. auto.
  - left. apply ok_inj in H. apply pair_equal_spec in H. destruct H as [<- <-]. auto.
Qed.

Lemma given_unique p ls ls' : given_schedule p ls -> given_schedule p ls' -> ls = ls'.
Proof. intros [A _] [B _]. congruence. Qed.

(** The built heaters have controls at every hour. *)
Lemma controls_scheduled p sched m h : eng_controls p = Ok (sched, m) -> load_up_configured p ->
  wh_schedule h = Some sched -> wh_map h = Some m -> scheduled h.
Proof.
  intros H LC ES EM. exists sched, m. split; [exact ES|]. split; [exact EM|].
  destruct (controls_inv _ _ _ H) as [(_ & -> & ->)|(ls & GS & EQ & normal & shed & lu & -> & _ & _ & LU)].
  - split; [cbn; lia|]. intros k I. apply repeat_spec in I. subst k. eexists. reflexivity.
  - pose proof (mapM_forall2 _ _ _ EQ) as F. pose proof (eq_sym (mapM_length _ _ _ EQ)) as L. change (length hours24) with 24%nat in L.
    split; [lia|]. intros k I. destruct (In_nth_error _ _ I) as (i & Ei).
    assert (Hi : (i < 24)%nat) by (rewrite L; apply nth_error_Some; congruence).
    destruct (forall2_nth _ _ _ F i (Z.of_nat i) (hours24_nth i Hi)) as (y & Ey & HL).
    assert (y = k) by congruence. subst y.
    destruct (label_cases _ _ _ _ HL) as [[-> _]|[[-> LH]|[-> _]]].
    + exists shed. reflexivity.
    + pose proof (LC ls i GS Hi LH) as NN. destruct LU as [[_ [E|E]]|(_ & a & Ea & ->)].
      * contradiction.
      * destruct LH as (k & _ & L1 & L2). lia.
      * eexists. reflexivity.
    + exists normal. reflexivity.
Qed.

(** ** A missing load-up setting *)

Definition run_by (sched : schedule) (m : ctl_map) (hs : list heater) : Prop :=
  exists h rest, hs = h :: rest /\ wh_schedule h = Some sched /\ wh_map h = Some m.

Lemma run_by_same sched m hs hs' : Forall2 same_heater hs hs' -> run_by sched m hs -> run_by sched m hs'.
Proof.
  intros F (h & rest & -> & A & B). inversion F as [|x y l l' (S1 & S2 & S3) F1 E1 E2]; subst. exists y, l'.
  split; [reflexivity|]. split; congruence.
Qed.

Lemma update_missing sched m hs view hour hs' k : run_by sched m hs -> (0 <= hour)%Z ->
  nth_error sched (Z.to_nat hour) = Some k -> dict_get m k = None ->
  mapM (fun h => wh_update h view hour) hs = Ok hs' -> False.
Proof.
  intros (h & rest & -> & A & B) Hh Ek En H. cbn [mapM] in H. destruct (bind_ok _ _ _ H) as (y & Ey & _).
  unfold wh_update, wh_controls_for in Ey. rewrite A, B, (py_nth_nonneg sched hour k Hh Ek) in Ey. cbn [bind] in Ey. rewrite En in Ey.
  discriminate.
Qed.

Lemma update_all_same hs view hour hs' : (0 <= hour)%Z -> mapM (fun h => wh_update h view hour) hs = Ok hs' -> Forall2 same_heater hs hs'.
Proof. intros Hh H. exact (aquastats_same _ _ _ _ (aquastats_of _ _ _ _ Hh H)). Qed.

(** A run in which every step keeps [I] and no step at an hour [h] succeeds stops early. *)
Lemma must_stop {St} (stp : St -> Z -> Z -> res (St * step_out)) (I : St -> Prop) (h : nat) s0 supply dur thr maxm tm s' r :
  (h < 24)%nat ->
  (forall s t iv s1 o, I s -> stp s t iv = Ok (s1, o) -> I s1 /\ hour_of t iv <> Z.of_nat h) ->
  I s0 -> simulate stp s0 supply dur thr maxm tm = Ok (s', r) -> sr_stopped r = true.
Proof.
  intros Hh T I0 H. destruct (simulate_inv _ _ _ _ _ _ _ _ _ H) as (total & iv & outs & Et & Piv & _ & _ & _ & EX & _ & _ & _ & _ & NS).
  destruct (sr_stopped r); [reflexivity|]. exfalso. destruct (NS eq_refl) as [L _].
  destruct (executed_forall stp iv I (fun t _ => hour_of t iv <> Z.of_nat h) (fun s t s1 o => T s t iv s1 o) _ _ _ _ I0 EX) as [_ P].
  assert (D : (total = 4320 /\ iv = 1)%Z \/ (total = 525600 /\ iv = 10)%Z).
  { unfold sim_times in Et. destruct (String.eqb dur "3day"); [inversion Et; auto|]. destruct (String.eqb dur "annual"); [inversion Et; auto|discriminate]. }
  assert (K : exists k, (k < length outs)%nat /\ hour_of (0 + Z.of_nat k) iv = Z.of_nat h).
  { destruct D as [[-> ->]|[-> ->]].
    - exists (60 * h)%nat. change (4320 / 1)%Z with 4320%Z in L. split; [lia|]. unfold hour_of.
      replace ((0 + Z.of_nat (60 * h)) * 1)%Z with (Z.of_nat h * 60)%Z by lia. rewrite Z.div_mul by lia. apply Z.mod_small. lia.
    - exists (6 * h)%nat. change (525600 / 10)%Z with 52560%Z in L. split; [lia|]. unfold hour_of.
      replace ((0 + Z.of_nat (6 * h)) * 10)%Z with (Z.of_nat h * 60)%Z by lia. rewrite Z.div_mul by lia. apply Z.mod_small. lia. }
  destruct K as (k & Lk & Ek). destruct (nth_error outs k) as [o|] eqn:Eo; [|apply nth_error_None in Eo; lia].
  exact (P k o Eo Ek).
Qed.

Section Missing.
Variables (sched : schedule) (m : ctl_map) (h : nat) (k : string) (b : building).
Hypothesis Hh : (h < 24)%nat.
Hypothesis Ek : nth_error sched h = Some k.
Hypothesis En : dict_get m k = None.

Lemma updates_ok hs view t iv hs' : run_by sched m hs -> mapM (fun x => wh_update x view (hour_of t iv)) hs = Ok hs' ->
  run_by sched m hs' /\ hour_of t iv <> Z.of_nat h.
Proof.
  intros R H. pose proof (hour_of_range t iv) as HR. split.
  - apply (run_by_same sched m hs hs' (update_all_same _ _ _ _ (proj1 HR) H) R).
  - intro E. rewrite E in H. apply (update_missing sched m hs view (Z.of_nat h) hs' k R ltac:(lia)); [rewrite Nat2Z.id; exact Ek|exact En|exact H].
Qed.

Definition base_run_by (s : bsys) : Prop := bs_tank s <> None /\ run_by sched m (bs_heaters s).

Lemma base_missing s t iv s1 o : base_run_by s -> base_step b s t iv = Ok (s1, o) -> base_run_by s1 /\ hour_of t iv <> Z.of_nat h.
Proof.
  intros [NT R] H. destruct (bs_tank s) as [tk|] eqn:ET; [|contradiction].
  destruct (base_step_inv b s t iv s1 o tk ET H) as (out & tk1 & tk2 & hs' & Ed & Eo & Ei & Eout & Ehs & Eq & E1 & E2 & Eu & Ets & Em & _ & _ & -> & _).
  destruct (updates_ok _ _ _ _ _ R Ehs) as [R1 HN]. split; [|exact HN]. split; [discriminate|exact R1].
Qed.

Lemma init_base_run_by s s0 : base_run_by s -> init_base b s = Ok s0 -> base_run_by s0.
Proof.
  intros [NT R] H. unfold init_base in H. destruct (bind_ok _ _ _ H) as (di & _ & H1). apply ok_inj in H1. subst s0.
  split; cbn; [destruct (bs_tank s); [discriminate|contradiction]|exact R].
Qed.

Lemma missing_base s dur thr maxm s' r : base_run_by s -> simulate_base b s dur thr maxm = Ok (s', r) -> sr_stopped r = true.
Proof.
  intros R H. unfold simulate_base in H. destruct (bind_ok _ _ _ H) as (s0 & E0 & H1).
  exact (must_stop (base_step b) base_run_by h s0 _ _ _ _ _ _ _ Hh (fun s t iv s1 o => base_missing s t iv s1 o) (init_base_run_by _ _ R E0) H1).
Qed.

Lemma missing_sprtp ret flow s dur thr maxm s' r : base_run_by s -> simulate_sprtp ret flow b s dur thr maxm = Ok (s', r) -> sr_stopped r = true.
Proof.
  intros R H. unfold simulate_sprtp in H. destruct (bind_ok _ _ _ H) as (s0 & E0 & H1).
  refine (must_stop (sprtp_step ret flow b) base_run_by h s0 _ _ _ _ _ _ _ Hh _ (init_base_run_by _ _ R E0) H1).
  intros s1 t iv s2 o R1 E. destruct (sprtp_step_inv _ _ _ _ _ _ _ _ E) as (s3 & o3 & E3 & K). destruct (base_missing _ _ _ _ _ R1 E3) as [[NT R3] HN].
  split; [|exact HN]. destruct (bs_tank s3) as [tk|] eqn:ET; [|contradiction]. destruct (K tk eq_refl) as (tk1 & _ & _ & _ & -> & _).
  split; [discriminate|exact R3].
Qed.

Lemma missing_parallel s dur thr maxm s' r : base_run_by (ps_base s) -> simulate_parallel b s dur thr maxm = Ok (s', r) -> sr_stopped r = true.
Proof.
  intros R H. unfold simulate_parallel in H. destruct (bind_ok _ _ _ H) as (s0 & E0 & H1).
  refine (must_stop (parallel_step b) (fun s => base_run_by (ps_base s)) h s0 _ _ _ _ _ _ _ Hh _ _ H1).
  - intros s1 t iv s2 o R1 E. destruct (parallel_step_inv _ _ _ _ _ _ E) as (s3 & o3 & tk & h3 & temp & out & kw & E3 & _ & -> & _).
    exact (base_missing _ _ _ _ _ R1 E3).
  - unfold init_parallel in E0. destruct (bind_ok _ _ _ E0) as (di & _ & E1). destruct (bind_ok _ _ _ E1) as (sb & Eb & E2).
    apply ok_inj in E2. subst s0. exact (init_base_run_by _ _ R Eb).
Qed.

Lemma missing_swing s dur thr maxm s' r : run_by sched m (ws_heaters s) -> simulate_swing b s dur thr maxm = Ok (s', r) -> sr_stopped r = true.
Proof.
  intros R H. unfold simulate_swing in H. destruct (bind_ok _ _ _ H) as (s0 & E0 & H1).
  refine (must_stop (swing_sim_step b) (fun s => run_by sched m (ws_heaters s)) h s0 _ _ _ _ _ _ _ Hh _ _ H1).
  - intros s1 t iv s2 o R1 E. unfold swing_sim_step in E.
    destruct (bind_ok _ _ _ E) as (demand & _ & E1). clear E. destruct (bind_ok _ _ _ E1) as (oat & _ & E2). clear E1.
    destruct (bind_ok _ _ _ E2) as (inlet & _ & E3). clear E2. destruct (bind_ok _ _ _ E3) as (outlet & _ & E4). clear E3.
    destruct (bind_ok _ _ _ E4) as (mode & _ & E5). clear E4. destruct (bind_ok _ _ _ E5) as (hs & Ehs & E6). clear E5.
    destruct (updates_ok _ _ _ _ _ R1 Ehs) as [R2 HN]. split; [|exact HN].
    repeat (match type of E6 with bind ?a ?f = Ok _ => let x := fresh "x" in let E := fresh "E" in let H := fresh "H" in
      destruct (bind_ok a f _ E6) as (x & E & H); clear E6 E; rename H into E6; cbv zeta in E6 end).
    apply ok_inj in E6. apply pair_equal_spec in E6. destruct E6 as [<- _]. exact R2.
  - unfold init_swing in E0. destruct (bind_ok _ _ _ E0) as (di & _ & E1). destruct (bind_ok _ _ _ E1) as (off & _ & E2).
    apply ok_inj in E2. subst s0. exact R.
Qed.

Lemma missing_mp s dur thr maxm s' r : run_by sched m (ms_heaters s) -> simulate_mp b s dur thr maxm = Ok (s', r) -> sr_stopped r = true.
Proof.
  intros R H. unfold simulate_mp in H. destruct (bind_ok _ _ _ H) as (s0 & E0 & H1).
  refine (must_stop (mp_step b) (fun s => run_by sched m (ms_heaters s)) h s0 _ _ _ _ _ _ _ Hh _ _ H1).
  - intros s1 t iv s2 o R1 E. unfold mp_step in E.
    destruct (bind_ok _ _ _ E) as (demand & _ & E1). clear E. destruct (bind_ok _ _ _ E1) as (oat & _ & E2). clear E1.
    destruct (bind_ok _ _ _ E2) as (inlet & _ & E3). clear E2. destruct (bind_ok _ _ _ E3) as (mode & _ & E5). clear E3.
    cbv zeta in E5. destruct (bind_ok _ _ _ E5) as (hs & Ehs & E6). clear E5.
    destruct (updates_ok _ _ _ _ _ R1 Ehs) as [R2 HN]. split; [|exact HN].
    destruct (bind_ok _ _ _ E6) as (tk1 & _ & E7). clear E6. destruct (bind_ok _ _ _ E7) as (top & _ & E8). clear E7.
    destruct (bind_ok _ _ _ E8) as (out & _ & E9). clear E8. destruct (bind_ok _ _ _ E9) as (kws & _ & E10). clear E9.
    destruct (bind_ok _ _ _ E10) as ([draw mv] & _ & E11). clear E10. destruct (bind_ok _ _ _ E11) as (tk2 & _ & E12). clear E11.
    destruct (bind_ok _ _ _ E12) as (tk3 & _ & E13). clear E12. destruct (bind_ok _ _ _ E13) as (usable & _ & E14). clear E13.
    destruct (bind_ok _ _ _ E14) as (temps & _ & E15). clear E14.
    apply ok_inj in E15. apply pair_equal_spec in E15. destruct E15 as [<- _]. exact R2.
  - unfold init_mp in E0. destruct (bind_ok _ _ _ E0) as (di & _ & E1). destruct (bind_ok _ _ _ E1) as (off & _ & E2).
    apply ok_inj in E2. subst s0. exact R.
Qed.
End Missing.
