(** Proofs about costs and energies of a simulation run: the reports. *)
From Coq Require Import Sorting.Permutation.
From Verif Require Import Prelude M_Building S_Building M_Utility S_Utility M_Heater M_SimRun S_SimRun.
From Verif Require Import L_Heater L_Building L_Utility L_Utility2 L_SimRun L_SimCost.

Definition K_of (r : sim_run) (j : nat) : Q := step_kw (sr_tm_kw r) j (nth j (sr_power r) None).

Lemma K_billed r j : K_of r j == billed_kw r j.
Proof.
  unfold K_of, billed_kw, step_kw. destruct (nth_error (sr_tm_kw r) j) as [x|] eqn:E.
  - rewrite (nth_error_nth _ _ 0 E). reflexivity.
  - apply nth_error_None in E. rewrite (nth_overflow _ 0 E). lra.
Qed.

Lemma K_of_ok r j raw : nth_error (sr_power r) j = Some raw -> K_of r j = step_kw (sr_tm_kw r) j raw.
Proof. intro E. unfold K_of. rewrite (nth_error_nth _ _ None E). reflexivity. Qed.

Lemma peak_list_ext n kw kw' per d : (forall i, kw i == kw' i) -> peak_list n kw per d -> peak_list n kw' per d.
Proof.
  intros E (A & B & C). split; [exact A|]. split; [|exact C]. intros p x H. destruct (B p x H) as [(i & Hi & Pi & Ki) M].
  split; [exists i; split; [exact Hi|]; split; [exact Pi|]; rewrite <- E; exact Ki|].
  intros j Hj Pj. rewrite <- E. apply M; assumption.
Qed.

Lemma rates_looks r u rate per : rates_at r u rate per <-> forall j, (j < length (sr_power r))%nat -> looks u (sr_iv r) rate per (0 + j).
Proof. unfold rates_at, looks. cbn [Nat.add]. tauto. Qed.

Lemma annual_ok r u rate per d :
  rates_at r u rate per -> d = peaks (K_of r) per (seq 0 (length (sr_power r))) [] ->
  (forall e, In e d -> ut_demand_charge u (fst e) (snd e) = Ok (charge_of u e)) ->
  exists c, annual_cost r u = Ok c /\
    c == qsum (map (energy_charge (billed_kw r) (step_hours r) rate) (seq 0 (length (sr_power r)))) +
         qsum (map (charge_of u) d) + 12 * ut_base u.
Proof.
  intros R -> C. apply rates_looks in R.
  destruct (annual_loop_ok u (sr_iv r) rate per (sr_tm_kw r) (sr_power r) 0 0 [] (K_of r)) as (c' & E1 & E2).
  { intros j raw Hj. apply K_of_ok. exact Hj. } { exact R. }
  unfold annual_cost. rewrite E1. cbn [bind]. rewrite (charges_mapM_ok u _ C). cbn [bind]. eexists. split; [reflexivity|].
  rewrite E2. unfold ut_yearly_base.
  rewrite (qsum_map_ext (energy_charge (K_of r) (qz (sr_iv r) / 60) rate) (energy_charge (billed_kw r) (step_hours r) rate)).
  - lra.
  - intros i _. unfold energy_charge, step_hours. rewrite K_billed. reflexivity.
Qed.

Lemma annual_inv r u c : annual_cost r u = Ok c ->
  exists rate per d, rates_at r u rate per /\ d = peaks (K_of r) per (seq 0 (length (sr_power r))) [] /\
    (forall e, In e d -> ut_demand_charge u (fst e) (snd e) = Ok (charge_of u e)) /\
    c == qsum (map (energy_charge (billed_kw r) (step_hours r) rate) (seq 0 (length (sr_power r)))) +
         qsum (map (charge_of u) d) + 12 * ut_base u.
Proof.
  intro H. assert (H0 := H). unfold annual_cost in H. destruct (bind_ok _ _ _ H) as ([e d] & E & H1).
  pose proof (annual_loop_inv _ _ _ _ _ _ _ _ E) as LK.
  destruct (annual_loop_ok u (sr_iv r) _ _ (sr_tm_kw r) (sr_power r) 0 0 [] (K_of r) (fun j raw Hj => K_of_ok r j raw Hj) LK) as (c' & E1 & _).
  rewrite E1 in E. inversion E as [[Hc Hd]]. clear E.
  destruct (bind_ok _ _ _ H1) as (cs & Ec & _). destruct (charges_mapM _ _ _ Ec) as [_ C].
  exists (rate_of u (sr_iv r)), (period_of u (sr_iv r)), d.
  split; [apply rates_looks; exact LK|]. split; [auto|]. split; [exact C|].
  destruct (annual_ok r u _ _ d (proj2 (rates_looks _ _ _ _) LK) (eq_sym Hd) C) as (c2 & A & B). rewrite H0 in A. inversion A; subst. exact B.
Qed.

(** ** Months *)

Lemma step_hour_div (i : nat) iv : (0 < iv)%Z -> step_in_hour (Z.of_nat i) iv (Z.of_nat i * iv / 60).
Proof.
  intro H. split; [|exact H].
  pose proof (Z.div_mod (Z.of_nat i * iv) 60 ltac:(lia)). pose proof (Z.mod_pos_bound (Z.of_nat i * iv) 60 ltac:(lia)). lia.
Qed.

Lemma looks_in_year p u iv rate per i : from_params p = Ok u -> (0 < iv)%Z -> looks u iv rate per i ->
  (0 <= Z.of_nat i * iv / 60 < 8760)%Z.
Proof.
  intros H Hiv [E _]. split; [apply Z.div_pos; nia|].
  destruct (Z_lt_le_dec (Z.of_nat i * iv / 60) 8760) as [L|L]; [exact L|]. exfalso.
  destruct (beyond_year p u (Z.of_nat i) iv _ H (step_hour_div i iv Hiv) L) as [C _]. congruence.
Qed.

Definition mon_of (iv : Z) (i : nat) : nat := Z.to_nat (step_to_month (Z.of_nat i) iv).

Lemma mon_of_ok p u iv rate per i : from_params p = Ok u -> (0 < iv)%Z -> looks u iv rate per i ->
  hour_month (Z.of_nat i * iv / 60) (mon_of iv i).
Proof.
  intros H Hiv L. pose proof (looks_in_year p u iv rate per i H Hiv L) as B.
  destruct (hour_month_ex _ B) as (m & Hm). pose proof (hour_to_month_ok _ _ Hm) as E.
  unfold mon_of, step_to_month. unfold hour_to_month in E. rewrite E, Nat2Z.id. exact Hm.
Qed.

Lemma step_months_ok p u r rate per : from_params p = Ok u -> (0 < sr_iv r)%Z -> rates_at r u rate per ->
  step_months (length (sr_power r)) (sr_iv r) (mon_of (sr_iv r)).
Proof.
  intros H Hiv R i Hi h St.
  assert (h = (Z.of_nat i * sr_iv r / 60)%Z).
  { destruct (step_hour_div i (sr_iv r) Hiv), St; lia. }
  subst h. eapply mon_of_ok; eauto. destruct (R i Hi). split; eauto.
Qed.

Lemma period_month p u iv rate per i : from_params p = Ok u -> pr_pk_start p <> [] -> (0 < iv)%Z -> looks u iv rate per i ->
  (per i / periods_per_month u = Z.of_nat (mon_of iv i))%Z /\ (mon_of iv i < 12)%nat /\ month_ok u (per i).
Proof.
  intros H NE Hiv L. pose proof (mon_of_ok p u iv rate per i H Hiv L) as Hm.
  destruct (proj1 (from_params_iff p) (ex_intro _ u H)) as [V _].
  destruct (covers_exists p _ V NE (proj1 Hm)) as (s & Cs & _).
  destruct (billed_exists p s ((Z.of_nat i * iv / 60) mod 24)) as (w & Hw & _).
  destruct (c10_core p u (Z.of_nat i) iv _ _ s w H (step_hour_div i iv Hiv) Hm Cs Hw) as (_ & k & P1 & P2 & _).
  destruct L as [_ L]. rewrite L in P1. inversion P1 as [P3]. clear P1.
  assert (PP : periods_per_month u = npk (pr_include_discount p)).
  { unfold periods_per_month. rewrite (tf_disc p u (from_params_facts p u H NE)). reflexivity. }
  pose proof (widx_range _ _ (billed_wok _ _ _ _ Hw)) as WR.
  assert (E : (per i / periods_per_month u = Z.of_nat (mon_of iv i))%Z).
  { rewrite PP, P3, P2. symmetry. apply (Z.div_unique _ _ _ (widx w)); [left; lia|lia]. }
  split; [exact E|]. split; [exact (proj1 Hm)|]. unfold month_ok. rewrite E. pose proof (proj1 Hm). lia.
Qed.

Lemma peaks_in kw per n e : In e (peaks kw per (seq 0 n) []) -> exists i, (i < n)%nat /\ per i = fst e.
Proof.
  intro H. destruct (peaks_ok kw per n) as (_ & B & _). destruct e as [p x]. destruct (B p x H) as [(i & Hi & Pi & _) _].
  exists i. auto.
Qed.

(** ** The detailed report *)

Lemma zeros12_nth m : nth m zeros12 0 = 0.
Proof. do 12 (destruct m as [|m]; [reflexivity|]). destruct m; reflexivity. Qed.

Lemma detailed_ok p r u rate per d :
  from_params p = Ok u -> pr_pk_start p <> [] -> (0 < sr_iv r)%Z -> rates_at r u rate per ->
  d = peaks (K_of r) per (seq 0 (length (sr_power r))) [] ->
  (forall e, In e d -> ut_demand_charge u (fst e) (snd e) = Ok (charge_of u e)) ->
  let n := length (sr_power r) in
  let cost := energy_charge (billed_kw r) (step_hours r) rate in
  let mon := mon_of (sr_iv r) in
  exists b, detailed_cost r u = Ok b /\ bk_base b = ut_base u /\
    length (bk_energy_peak b) = 12%nat /\ length (bk_energy_off b) = 12%nat /\
    length (bk_demand_peak b) = 12%nat /\ length (bk_demand_off b) = 12%nat /\
    forall m, (m < 12)%nat ->
      nth m (bk_energy_peak b) 0 == sum_if n (fun i => Nat.eqb (mon i) m && is_peak u (per i)) cost /\
      nth m (bk_energy_off b) 0 == sum_if n (fun i => Nat.eqb (mon i) m && negb (is_peak u (per i))) cost /\
      nth m (bk_demand_peak b) 0 == qsum (map (fun e => if (Nat.eqb (Z.to_nat (fst e / periods_per_month u)) m && is_peak u (fst e))%bool then charge_of u e else 0) d) /\
      nth m (bk_demand_off b) 0 == qsum (map (fun e => if (Nat.eqb (Z.to_nat (fst e / periods_per_month u)) m && negb (is_peak u (fst e)))%bool then charge_of u e else 0) d).
Proof.
  intros H NE Hiv R -> C n cost mon.
  pose proof (proj1 (rates_looks r u rate per) R) as LK.
  destruct (detailed_loop_ok u (sr_iv r) rate per (sr_tm_kw r) (sr_power r) 0 zeros12 zeros12 [] (K_of r) (mon_of (sr_iv r)) eq_refl
             (fun j raw Hj => K_of_ok r j raw Hj) LK (fun j _ => eq_refl)) as (ep & eo & E1 & L1 & L2 & S1).
  destruct (detailed_demand_ok u (peaks (K_of r) per (seq 0 (length (sr_power r))) []) zeros12 zeros12 eq_refl eq_refl) as (dp & dq & E2 & L3 & L4 & S2).
  { intros e He. destruct (peaks_in _ _ _ _ He) as (i & Hi & <-). eapply period_month; eauto; exact (LK i Hi). }
  { exact C. }
  unfold detailed_cost. rewrite E1. cbn [bind]. rewrite E2. cbn [bind]. eexists. split; [reflexivity|].
  cbn [bk_base bk_energy_peak bk_energy_off bk_demand_peak bk_demand_off].
  split; [reflexivity|]. split; [exact L1|]. split; [exact L2|]. split; [exact L3|]. split; [exact L4|].
  intros m Hm. destruct (S1 m Hm) as [A1 A2]. destruct (S2 m Hm) as [A3 A4]. rewrite zeros12_nth in *.
  assert (EC : forall i, energy_charge (K_of r) (qz (sr_iv r) / 60) rate i == cost i).
  { intro i. unfold cost, energy_charge, step_hours. rewrite K_billed. reflexivity. }
  rewrite A1, A2, A3, A4. unfold sum_if. repeat split; try lra.
  - rewrite Qplus_0_l. apply qsum_map_ext. intros i _. change (mon i) with (mon_of (sr_iv r) i). destruct (Nat.eqb (mon_of (sr_iv r) i) m && is_peak u (per i))%bool; [apply EC|reflexivity].
  - rewrite Qplus_0_l. apply qsum_map_ext. intros i _. change (mon i) with (mon_of (sr_iv r) i). destruct (Nat.eqb (mon_of (sr_iv r) i) m && negb (is_peak u (per i)))%bool; [apply EC|reflexivity].
Qed.

Lemma detailed_total p r u c : from_params p = Ok u -> pr_pk_start p <> [] -> (0 < sr_iv r)%Z -> annual_cost r u = Ok c ->
  exists b, detailed_cost r u = Ok b /\
    qsum (bk_energy_peak b) + qsum (bk_energy_off b) + qsum (bk_demand_peak b) + qsum (bk_demand_off b) + 12 * bk_base b == c.
Proof.
  intros H NE Hiv A. destruct (annual_inv r u c A) as (rate & per & d & R & Ed & C & V).
  destruct (detailed_ok p r u rate per d H NE Hiv R Ed C) as (b & E & B & L1 & L2 & L3 & L4 & S1).
  exists b. split; [exact E|]. rewrite B, V. clear V.
  rewrite (qsum_months _ L1), (qsum_months _ L2), (qsum_months _ L3), (qsum_months _ L4).
  set (n := length (sr_power r)) in *. set (cost := energy_charge (billed_kw r) (step_hours r) rate) in *.
  set (mon := mon_of (sr_iv r)) in *.
  pose proof (proj1 (rates_looks r u rate per) R) as LK.
  assert (M1 : forall i, In i (seq 0 n) -> (mon i < 12)%nat).
  { intros i Hi. apply in_seq in Hi. eapply (period_month p u (sr_iv r) rate per i); eauto. exact (LK i ltac:(fold n; lia)). }
  assert (M2 : forall e, In e d -> (Z.to_nat (fst e / periods_per_month u) < 12)%nat).
  { intros e He. rewrite Ed in He. destruct (peaks_in _ _ _ _ He) as (i & Hi & <-).
    destruct (period_month p u (sr_iv r) rate per i H NE Hiv (LK i Hi)) as (_ & _ & B0). unfold month_ok in B0. lia. }
  assert (EE : qsum (map (fun m => nth m (bk_energy_peak b) 0) (seq 0 12)) + qsum (map (fun m => nth m (bk_energy_off b) 0) (seq 0 12)) == qsum (map cost (seq 0 n))).
  { rewrite <- (sum_months_swap (seq 0 n) mon cost M1). rewrite <- qsum_map_add. apply qsum_map_ext.
    intros m Hm. apply in_seq in Hm. destruct (S1 m ltac:(lia)) as (A1 & A2 & _ & _). rewrite A1, A2.
    unfold sum_if. exact (split_if (seq 0 n) (fun i => Nat.eqb (mon i) m) (fun i => is_peak u (per i)) cost). }
  assert (DD : qsum (map (fun m => nth m (bk_demand_peak b) 0) (seq 0 12)) + qsum (map (fun m => nth m (bk_demand_off b) 0) (seq 0 12)) == qsum (map (charge_of u) d)).
  { rewrite <- (sum_months_swap d (fun e => Z.to_nat (fst e / periods_per_month u)) (charge_of u) M2). rewrite <- qsum_map_add. apply qsum_map_ext.
    intros m Hm. apply in_seq in Hm. destruct (S1 m ltac:(lia)) as (_ & _ & A3 & A4). rewrite A3, A4.
    exact (split_if d (fun e => Nat.eqb (Z.to_nat (fst e / periods_per_month u)) m) (fun e => is_peak u (fst e)) (charge_of u)). }
  lra.
Qed.

(** ** The plain report *)

Lemma K_without r j : K_of (without_tm r) j = or0 (nth j (sr_power r) None).
Proof. unfold K_of, without_tm, step_kw. cbn [sr_tm_kw sr_power]. destruct j; reflexivity. Qed.

Lemma monthly_total p r u c : from_params p = Ok u -> pr_pk_start p <> [] -> (0 < sr_iv r)%Z ->
  annual_cost (without_tm r) u = Ok c ->
  exists en dm, monthly_cost r u = Ok (en, dm, ut_base u) /\ length en = 12%nat /\ length dm = 12%nat /\
    qsum en + qsum dm + 12 * ut_base u == c.
Proof.
  intros H NE Hiv A. destruct (annual_inv (without_tm r) u c A) as (rate & per & d & R & Ed & C & V).
  pose proof (proj1 (rates_looks _ u rate per) R) as LK. cbn [sr_power sr_iv without_tm] in LK, Ed, V.
  set (K := K_of (without_tm r)) in *.
  destruct (monthly_loop_ok u (sr_iv r) rate per (sr_power r) 0 zeros12 [] K (mon_of (sr_iv r))) as (en & E1 & L1 & S1).
  { intros j raw Hj. cbn [Nat.add]. unfold K. rewrite K_without. rewrite (nth_error_nth _ _ None Hj). reflexivity. }
  { exact LK. } { intros j Hj. reflexivity. }
  destruct (monthly_demand_ok u d zeros12 eq_refl) as (dm & E2 & L2 & S2).
  { intros e He. rewrite Ed in He. destruct (peaks_in _ _ _ _ He) as (i & Hi & <-). eapply period_month; eauto; exact (LK i Hi). }
  { exact C. }
  exists en, dm. unfold monthly_cost. rewrite E1. cbn [bind]. fold K in Ed. rewrite <- Ed, E2. cbn [bind].
  split; [reflexivity|]. split; [exact L1|]. split; [exact L2|]. rewrite V. clear V.
  rewrite (qsum_months _ L1), (qsum_months _ L2).
  set (n := length (sr_power r)) in *.
  assert (M1 : forall i, In i (seq 0 n) -> (mon_of (sr_iv r) i < 12)%nat).
  { intros i Hi. apply in_seq in Hi. eapply (period_month p u (sr_iv r) rate per i); eauto. exact (LK i ltac:(fold n; lia)). }
  assert (M2 : forall e, In e d -> (Z.to_nat (fst e / periods_per_month u) < 12)%nat).
  { intros e He. rewrite Ed in He. destruct (peaks_in _ _ _ _ He) as (i & Hi & <-).
    destruct (period_month p u (sr_iv r) rate per i H NE Hiv (LK i Hi)) as (_ & _ & B0). unfold month_ok in B0. lia. }
  assert (EE : qsum (map (fun m => nth m en 0) (seq 0 12)) == qsum (map (energy_charge (billed_kw (without_tm r)) (step_hours r) rate) (seq 0 n))).
  { rewrite <- (sum_months_swap (seq 0 n) (mon_of (sr_iv r)) _ M1). apply qsum_map_ext.
    intros m Hm. apply in_seq in Hm. rewrite (S1 m ltac:(cbn; lia)), zeros12_nth, Qplus_0_l. apply qsum_map_ext. intros i _.
    destruct (Nat.eqb (mon_of (sr_iv r) i) m); [|reflexivity].
    unfold energy_charge, step_hours, K. rewrite K_billed. reflexivity. }
  assert (DD : qsum (map (fun m => nth m dm 0) (seq 0 12)) == qsum (map (charge_of u) d)).
  { rewrite <- (sum_months_swap d (fun e => Z.to_nat (fst e / periods_per_month u)) (charge_of u) M2). apply qsum_map_ext.
    intros m Hm. apply in_seq in Hm. rewrite (S2 m ltac:(lia)), zeros12_nth, Qplus_0_l. reflexivity. }
  change (step_hours (without_tm r)) with (step_hours r). lra.
Qed.

(** ** Totality *)

Lemma annual_total p r u : from_params p = Ok u -> pr_pk_start p <> [] -> discount_rates_given p ->
  (0 < sr_iv r)%Z -> (Z.of_nat (length (sr_power r)) * sr_iv r <= 525600)%Z ->
  exists c, annual_cost r u = Ok c.
Proof.
  intros H NE DG Hiv HN.
  destruct (proj1 (from_params_iff p) (ex_intro _ u H)) as [V _].
  assert (LK : forall j, (j < length (sr_power r))%nat -> looks u (sr_iv r) (rate_of u (sr_iv r)) (period_of u (sr_iv r)) j /\
            rated u (period_of u (sr_iv r) j)).
  { intros j Hj. set (h := (Z.of_nat j * sr_iv r / 60)%Z).
    assert (Hh : (0 <= h < 8760)%Z).
    { unfold h. split; [apply Z.div_pos; nia|]. apply Z.div_lt_upper_bound; nia. }
    destruct (hour_month_ex h Hh) as (m & Hm). destruct (covers_exists p m V NE (proj1 Hm)) as (s & Cs & _).
    destruct (billed_exists p s (h mod 24)) as (w & Hw & _).
    destruct (c10_core p u (Z.of_nat j) (sr_iv r) h m s w H (step_hour_div j (sr_iv r) Hiv) Hm Cs Hw) as (E1 & k & E2 & E3 & _).
    pose proof (from_params_facts p u H NE) as T. pose proof (tf_len p u T) as LT.
    assert (IN : In k (ut_chart u)).
    { unfold ut_period_at in E2. rewrite (hour_of_step_ok _ _ _ (step_hour_div j (sr_iv r) Hiv)) in E2. fold h in E2. cbn [bind] in E2.
      rewrite chart_lookup in E2 by lia. apply ok_inj in E2. rewrite <- E2. apply nth_In. lia. }
    destruct (params_rated p u H NE DG k IN) as ((dd & ee & F1 & F2) & _).
    assert (ER : energy_rate p s w <> None).
    { destruct V as (_ & _ & _ & _ & _ & _ & _ & _ & V). destruct (V s (proj1 Cs)) as (_ & N1 & N2 & N3 & N4 & _).
      destruct w; cbn; [exact N4|exact N3|]. apply DG; [apply (billed_wok _ _ _ _ Hw eq_refl)|exact (proj1 Cs)]. }
    destruct (energy_rate p s w) as [x|] eqn:EX; [|congruence].
    split; [eapply looks_chosen; eauto|]. unfold period_of. rewrite E2. exists dd, ee. auto. }
  destruct (annual_ok r u _ _ _ (proj2 (rates_looks r u _ _) (fun j Hj => proj1 (LK j Hj))) eq_refl) as (c & A & _); [|eauto].
  intros e He. destruct (peaks_in _ _ _ _ He) as (i & Hi & Ei). destruct (LK i Hi) as [_ (dd & ee & F1 & F2)].
  rewrite Ei in F1. unfold charge_of, ut_demand_charge. rewrite F1. reflexivity.
Qed.

(** ** Under-reporting *)

Lemma annual_mono r u c : annual_cost r u = Ok c -> (0 < sr_iv r)%Z -> (forall x, In x (sr_tm_kw r) -> 0 <= x) ->
  (forall i x, ut_energy_at u i (sr_iv r) = Ok (Some x) -> 0 <= x) ->
  (forall k d, zget (ut_demand u) k = Some (Some d) -> 0 <= d) ->
  exists c', annual_cost (without_tm r) u = Ok c' /\ c' <= c.
Proof.
  intros A Hiv TM ER DR. destruct (annual_inv r u c A) as (rate & per & d & R & Ed & C & V).
  set (n := length (sr_power r)) in *.
  set (d' := peaks (K_of (without_tm r)) per (seq 0 n) []).
  assert (PL := peaks_ok (K_of r) per n). rewrite <- Ed in PL.
  assert (PL' := peaks_ok (K_of (without_tm r)) per n). fold d' in PL'.
  assert (LEK : forall i, billed_kw (without_tm r) i <= billed_kw r i).
  { intro i. unfold billed_kw, without_tm. cbn [sr_tm_kw sr_power].
    assert (Z0 : nth i (@nil Q) 0 = 0) by (destruct i; reflexivity). rewrite Z0.
    destruct (nth_in_or_default i (sr_tm_kw r) 0) as [J|J]; [specialize (TM _ J); lra|rewrite J; lra]. }
  (* keys of both lists are the occurring periods *)
  assert (KEYS : forall k, In k (map fst d') <-> In k (map fst d)).
  { intro k. destruct PL as (_ & B1 & C1). destruct PL' as (_ & B2 & C2). split; intro Hk; apply in_map_iff in Hk; destruct Hk as ([q x] & <- & He); cbn [fst].
    - destruct (B2 _ _ He) as [(i & Hi & <- & _) _]. apply C1. exact Hi.
    - destruct (B1 _ _ He) as [(i & Hi & <- & _) _]. apply C2. exact Hi. }
  assert (DEM : forall q, In q (map fst d) -> exists dr, zget (ut_demand u) q = Some (Some dr)).
  { intros q Hq. apply in_map_iff in Hq. destruct Hq as ([q' x] & <- & He). specialize (C _ He). cbn [fst snd] in *.
    unfold ut_demand_charge in C. destruct (zget (ut_demand u) q') as [[dr|]|]; [eauto|discriminate|discriminate]. }
  assert (C' : forall e, In e d' -> ut_demand_charge u (fst e) (snd e) = Ok (charge_of u e)).
  { intros e He. destruct (DEM (fst e)) as (dr & E); [apply KEYS; apply in_map; exact He|].
    unfold charge_of, ut_demand_charge. rewrite E. reflexivity. }
  destruct (annual_ok (without_tm r) u rate per d') as (c' & E & V'); [exact R|reflexivity|exact C'|].
  exists c'. split; [exact E|]. rewrite V, V'. cbn [sr_power sr_iv without_tm]. fold n.
  assert (EN : qsum (map (energy_charge (billed_kw (without_tm r)) (step_hours (without_tm r)) rate) (seq 0 n)) <=
               qsum (map (energy_charge (billed_kw r) (step_hours r) rate) (seq 0 n))).
  { apply qsum_map_le. intros i Hi. apply in_seq in Hi. unfold energy_charge, step_hours. cbn [sr_iv without_tm].
    destruct (R i ltac:(fold n; lia)) as [Ri _]. specialize (ER _ _ Ri). specialize (LEK i).
    assert (0 <= qz (sr_iv r) / 60).
    { unfold Qdiv. apply Qmult_le_0_compat; [unfold qz; change 0 with (inject_Z 0); rewrite <- Zle_Qle; lia|discriminate]. }
    apply Qmult_le_compat_r; [|exact ER]. apply Qmult_le_compat_r; assumption. }
  assert (DN : qsum (map (charge_of u) d') <= qsum (map (charge_of u) d)).
  { (* compare through the common key list *)
    assert (SUMK : forall l, NoDup (map fst l) -> qsum (map (charge_of u) l) == qsum (map (fun q => match zget l q with Some x => charge_of u (q, x) | None => 0 end) (map fst l))).
    { clear. intros l N. rewrite map_map. apply qsum_map_ext. intros [q x] He. cbn [fst].
      rewrite (proj2 (zget_In l q x N) He). reflexivity. }
    destruct PL as (N1 & B1 & C1). destruct PL' as (N2 & B2 & C2).
    rewrite (SUMK d' N2), (SUMK d N1).
    assert (PERM : Permutation (map fst d') (map fst d)) by (apply NoDup_Permutation; assumption).
    assert (QP : forall (f : Z -> Q) a b, Permutation a b -> qsum (map f a) == qsum (map f b)).
    { clear. intros f a b P. induction P; cbn; lra. }
    rewrite (QP _ _ _ PERM). apply qsum_map_le. intros q Hq.
    destruct (DEM q Hq) as (dr & Edr). specialize (DR _ _ Edr).
    assert (IN' : In q (map fst d')) by (apply KEYS; exact Hq).
    apply in_map_iff in IN'. destruct IN' as ([q' x'] & Eq & He'). cbn [fst] in Eq. subst q'.
    apply in_map_iff in Hq. destruct Hq as ([q' x] & Eq & He). cbn [fst] in Eq. subst q'.
    rewrite (proj2 (zget_In _ _ _ N2) He'), (proj2 (zget_In _ _ _ N1) He).
    unfold charge_of, ut_demand_charge. cbn [fst snd]. rewrite Edr.
    destruct (B2 _ _ He') as [(i & Hi & Pi & Ki) _]. destruct (B1 _ _ He) as [_ M].
    assert (X : x' <= x).
    { rewrite <- Ki. rewrite K_billed. apply Qle_trans with (billed_kw r i); [apply LEK|]. rewrite <- K_billed. apply M; assumption. }
    rewrite (Qmult_comm dr x'), (Qmult_comm dr x). apply Qmult_le_compat_r; assumption. }
  change (step_hours (without_tm r)) with (step_hours r) in *. lra.
Qed.

(** ** Energy *)

Lemma qsum_firstn_skipn {A} (f : A -> Q) l n : qsum (map f l) == qsum (map f (firstn n l)) + qsum (map f (skipn n l)).
Proof. rewrite <- qsum_app, <- map_app, firstn_skipn. reflexivity. Qed.

Lemma monthly_energy_sum h spd : forall days l, (Z.of_nat (length l) <= fold_right Z.add 0 days * spd)%Z ->
  (0 <= spd)%Z -> (forall d, In d days -> (0 <= d)%Z) ->
  qsum (monthly_energy_loop l h spd days) == qsum (map (fun p => or0 p * h) l).
Proof.
  induction days as [|d days IH]; intros l HL Hs Hd.
  - cbn [fold_right] in HL. destruct l; [reflexivity|cbn [length] in HL; lia].
  - cbn [monthly_energy_loop qsum]. rewrite (qsum_firstn_skipn _ l (Z.to_nat (d * spd))).
    rewrite IH; [reflexivity| |exact Hs|intros x Hx; apply Hd; right; exact Hx].
    rewrite skipn_length. cbn [fold_right] in HL. assert (0 <= d)%Z by (apply Hd; left; reflexivity).
    assert (0 <= fold_right Z.add 0 days)%Z.
    { clear - Hd. induction days as [|x r IHr]; cbn; [lia|]. assert (0 <= x)%Z by (apply Hd; right; left; reflexivity).
      assert (0 <= fold_right Z.add 0 r)%Z by (apply IHr; intros y [->|Hy]; apply Hd; [left; reflexivity|right; right; exact Hy]). lia. }
    nia.
Qed.

Lemma block_sum {A} (f : A -> Q) (dflt : A) : forall l lo n,
  qsum (map f (firstn n (skipn lo l))) ==
  sum_if (length l) (fun i => Nat.leb lo i && Nat.ltb i (lo + n)) (fun i => f (nth i l dflt)).
Proof.
  induction l as [|a l IH]; intros lo n.
  - destruct lo, n; reflexivity.
  - unfold sum_if in *. cbn [length seq map qsum nth]. rewrite <- seq_shift, map_map.
    destruct lo as [|lo].
    + cbn [skipn]. destruct n as [|n].
      * cbn [firstn map qsum]. cbn. rewrite (qsum_map_const _ _ 0); [lra|]. reflexivity.
      * cbn [firstn map qsum]. specialize (IH 0%nat n). cbn [skipn] in IH. rewrite IH. cbn [Nat.leb Nat.add andb nth]. reflexivity.
    + cbn [skipn]. rewrite IH. cbn [Nat.leb Nat.add andb nth]. rewrite Qplus_0_l. reflexivity.
Qed.

Lemma skipn_skipn' {A} (l : list A) : forall a b, skipn a (skipn b l) = skipn (b + a) l.
Proof. intros a b. revert l. induction b as [|b IH]; intro l; [reflexivity|]. destruct l; [destruct a; reflexivity|apply IH]. Qed.

Lemma monthly_loop_nth h spd : forall days l m, (m < length days)%nat -> (0 <= spd)%Z -> (forall d, In d days -> (0 <= d)%Z) ->
  nth m (monthly_energy_loop l h spd days) 0 =
  qsum (map (fun p => or0 p * h) (firstn (Z.to_nat (nth m days 0%Z * spd)) (skipn (Z.to_nat (fold_right Z.add 0%Z (firstn m days) * spd)) l))).
Proof.
  induction days as [|d days IH]; intros l m Hm Hs Hd; [cbn in Hm; lia|].
  destruct m as [|m]; [reflexivity|]. cbn [monthly_energy_loop nth firstn fold_right].
  rewrite IH; [|cbn in Hm; lia|exact Hs|intros x Hx; apply Hd; right; exact Hx].
  rewrite skipn_skipn'. do 4 f_equal.
  assert (0 <= d)%Z by (apply Hd; left; reflexivity).
  assert (0 <= fold_right Z.add 0 (firstn m days))%Z.
  { clear - Hd. revert m. induction days as [|x r IHr]; intros [|m]; cbn; try lia.
    assert (0 <= x)%Z by (apply Hd; right; left; reflexivity).
    assert (0 <= fold_right Z.add 0 (firstn m r))%Z by (apply IHr; intros y [->|Hy]; apply Hd; [left; reflexivity|right; right; exact Hy]). lia. }
  nia.
Qed.
