(** C13-C19, C58: simulation results. *)
From Verif Require Import Prelude M_Building S_Building M_Utility S_Utility M_Heater M_SimRun S_SimRun.
From Verif Require Import L_Heater L_Building L_Utility L_Utility2 L_SimRun L_SimCost L_SimCost2 L_SimMisc P_Utility.

Lemma charged_map u d : (forall e, In e d -> ut_demand_charge u (fst e) (snd e) = Ok (charge_of u e)) ->
  demand_charged u d (map (charge_of u) d).
Proof.
  induction d as [|e d IH]; intro H; cbn [map]; constructor.
  - apply H. left. reflexivity.
  - apply IH. intros e' He. apply H. right. exact He.
Qed.

Lemma charged_unique u d cs : demand_charged u d cs -> cs = map (charge_of u) d /\
  forall e, In e d -> ut_demand_charge u (fst e) (snd e) = Ok (charge_of u e).
Proof.
  induction 1 as [|e x d cs H F IH]; [split; [reflexivity|intros e []]|]. destruct IH as [-> IH].
  assert (E : x = charge_of u e) by (unfold charge_of; rewrite H; reflexivity).
  split; [cbn; rewrite E; reflexivity|]. intros e' [<-|He]; [rewrite H, E; reflexivity|apply IH; exact He].
Qed.

Lemma charge_if_map u sel d : charge_if sel d (map (charge_of u) d) = qsum (map (fun e => if sel (fst e) then charge_of u e else 0) d).
Proof.
  unfold charge_if. induction d as [|e d IH]; cbn [map combine qsum fst snd]; [reflexivity|]. rewrite IH. reflexivity.
Qed.

(** ** C13 *)

Theorem C13_annual_cost : forall r u c,
  annual_cost r u = Ok c ->
  exists rate period d charges,
    rates_at r u rate period /\
    peak_list (length (sr_power r)) (billed_kw r) period d /\
    demand_charged u d charges /\
    c == qsum (map (energy_charge (billed_kw r) (step_hours r) rate) (seq 0 (length (sr_power r))))
         + qsum charges + 12 * ut_base u.
Proof.
  intros r u c H. destruct (annual_inv r u c H) as (rate & per & d & R & Ed & C & V).
  exists rate, per, d, (map (charge_of u) d). split; [exact R|]. split.
  - rewrite Ed. apply (peak_list_ext _ (K_of r)); [intro i; apply K_billed|]. apply peaks_ok.
  - split; [apply charged_map; exact C|exact V].
Qed.
Print Assumptions C13_annual_cost.

(** A run of at most a year under an accepted tariff has a cost. *)
Theorem C13_total : forall p r u,
  from_params p = Ok u -> pr_pk_start p <> [] -> discount_rates_given p ->
  (0 < sr_iv r)%Z -> (Z.of_nat (length (sr_power r)) * sr_iv r <= 525600)%Z ->
  exists c, annual_cost r u = Ok c.
Proof. exact annual_total. Qed.
Print Assumptions C13_total.

(** A run with one billed step beyond the year has none. *)
Theorem C13_beyond_year : forall p r u,
  from_params p = Ok u -> (0 < sr_iv r)%Z ->
  (525600 <= (Z.of_nat (length (sr_power r)) - 1) * sr_iv r)%Z ->
  forall c, annual_cost r u <> Ok c.
Proof.
  intros p r u H Hiv HB c A. destruct (annual_inv r u c A) as (rate & per & _ & R & _).
  set (n := length (sr_power r)) in *. assert (Hn : (0 < n)%nat) by (clearbody n; destruct n as [|n]; [change (Z.of_nat 0) with 0%Z in HB; lia|lia]).
  pose proof (looks_in_year p u (sr_iv r) rate per (n - 1) H Hiv (R (n - 1)%nat ltac:(fold n; lia))) as B.
  replace (Z.of_nat (n - 1)) with (Z.of_nat n - 1)%Z in B by lia.
  assert (8760 <= (Z.of_nat n - 1) * sr_iv r / 60)%Z; [|lia]. apply Z.div_le_lower_bound; lia.
Qed.
Print Assumptions C13_beyond_year.

Definition ex_run (power : list (option Q)) (tm : list Q) : sim_run :=
  mkRun 525600 60 [] [] [] power [] [] [] [[]; []; []; []; []; []] [] [] tm 0 false 5 10 0 false.

Example C13_case : exists u c, from_params ex_two = Ok u /\ discount_rates_given ex_two /\ pr_pk_start ex_two <> [] /\
  annual_cost (ex_run [Some 2; None; Some 5] [1; 1]) u = Ok c.
Proof.
  destruct ex_two_accepted as (u & H). exists u.
  assert (D : discount_rates_given ex_two) by (intro X; discriminate X).
  destruct (C13_total ex_two (ex_run [Some 2; None; Some 5] [1; 1]) u H ltac:(discriminate) D eq_refl ltac:(cbn; lia)) as (c & E).
  exists c. split; [exact H|]. split; [exact D|]. split; [discriminate|exact E].
Qed.

(** ** C14 *)

Theorem C14_sums_to_annual : forall p r u c,
  from_params p = Ok u -> pr_pk_start p <> [] -> (0 < sr_iv r)%Z -> annual_cost r u = Ok c ->
  exists b, detailed_cost r u = Ok b /\
    qsum (bk_energy_peak b) + qsum (bk_energy_off b) + qsum (bk_demand_peak b) + qsum (bk_demand_off b)
      + 12 * bk_base b == c.
Proof. exact detailed_total. Qed.
Print Assumptions C14_sums_to_annual.

(** Each step's energy charge is booked in its month, and as peak exactly if it is billed in a
    peak window; each demand charge likewise by the steps of its period. *)
Theorem C14_booked : forall p r u c,
  from_params p = Ok u -> pr_pk_start p <> [] -> (0 < sr_iv r)%Z -> annual_cost r u = Ok c ->
  exists b rate period d charges mon pk pmon ppk,
    detailed_cost r u = Ok b /\
    rates_at r u rate period /\
    peak_list (length (sr_power r)) (billed_kw r) period d /\ demand_charged u d charges /\
    (forall i, (i < length (sr_power r))%nat ->
       (exists m w, step_window p (sr_iv r) i m w) /\
       (forall m w, step_window p (sr_iv r) i m w -> mon i = m /\ pk i = is_peak_window w) /\
       pmon (period i) = mon i /\ ppk (period i) = pk i) /\
    let n := length (sr_power r) in
    let cost := energy_charge (billed_kw r) (step_hours r) rate in
    forall m, (m < 12)%nat ->
      nth m (bk_energy_peak b) 0 == sum_if n (fun i => Nat.eqb (mon i) m && pk i) cost /\
      nth m (bk_energy_off b) 0 == sum_if n (fun i => Nat.eqb (mon i) m && negb (pk i)) cost /\
      nth m (bk_demand_peak b) 0 == charge_if (fun k => Nat.eqb (pmon k) m && ppk k) d charges /\
      nth m (bk_demand_off b) 0 == charge_if (fun k => Nat.eqb (pmon k) m && negb (ppk k)) d charges.
Proof.
  intros p r u c H NE Hiv A. destruct (annual_inv r u c A) as (rate & per & d & R & Ed & C & _).
  destruct (detailed_ok p r u rate per d H NE Hiv R Ed C) as (b & E & _ & _ & _ & _ & _ & S1).
  pose proof (proj1 (rates_looks r u rate per) R) as LK.
  exists b, rate, per, d, (map (charge_of u) d), (mon_of (sr_iv r)), (fun i => is_peak u (per i)),
    (fun k => Z.to_nat (k / periods_per_month u)), (is_peak u).
  split; [exact E|]. split; [exact R|]. split.
  { rewrite Ed. apply (peak_list_ext _ (K_of r)); [intro i; apply K_billed|]. apply peaks_ok. }
  split; [apply charged_map; exact C|]. split.
  - intros i Hi. pose proof (LK i Hi) as Li. cbn [Nat.add] in Li.
    destruct (period_month p u (sr_iv r) rate per i H NE Hiv Li) as (P1 & P2 & _).
    pose proof (mon_of_ok p u (sr_iv r) rate per i H Hiv Li) as Hm.
    destruct (proj1 (from_params_iff p) (ex_intro _ u H)) as [V _].
    split; [|split; [|split; [rewrite P1, Nat2Z.id; reflexivity|reflexivity]]].
    + destruct (covers_exists p _ V NE P2) as (s & Cs & _). destruct (billed_exists p s ((Z.of_nat i * sr_iv r / 60) mod 24)) as (w & Hw & _).
      exists (mon_of (sr_iv r) i), w, (Z.of_nat i * sr_iv r / 60)%Z, s. split; [apply step_hour_div; exact Hiv|]. auto.
    + intros m w (h & s & St & Hh & Cs & Hw).
      assert (h = (Z.of_nat i * sr_iv r / 60)%Z) by (destruct (step_hour_div i (sr_iv r) Hiv), St; lia). subst h.
      split.
      * apply hour_to_month_ok in Hh. apply hour_to_month_ok in Hm. lia.
      * destruct (c10_core p u (Z.of_nat i) (sr_iv r) _ m s w H St Hh Cs Hw) as (_ & k & K1 & _ & _ & K2 & _).
        destruct Li as [_ Li]. rewrite Li in K1. apply ok_inj in K1. unfold is_peak. rewrite K1, K2. destruct w; reflexivity.
  - cbv zeta. intros m Hm. destruct (S1 m Hm) as (A1 & A2 & A3 & A4). split; [exact A1|]. split; [exact A2|].
    rewrite !charge_if_map. split; assumption.
Qed.
Print Assumptions C14_booked.

Example C14_case : exists u c, from_params ex_three = Ok u /\ pr_pk_start ex_three <> [] /\
  annual_cost (ex_run [Some 2; None; Some 5; Some 4] [0; 3; 0; 3]) u = Ok c.
Proof.
  destruct ex_three_accepted as (u & H). exists u.
  assert (D : discount_rates_given ex_three).
  { intros _ i Hi. cbn in Hi. destruct i as [|[|i]]; [split; discriminate|split; discriminate|lia]. }
  destruct (C13_total ex_three (ex_run [Some 2; None; Some 5; Some 4] [0; 3; 0; 3]) u H ltac:(discriminate) D eq_refl ltac:(cbn; lia)) as (c & E).
  exists c. split; [exact H|]. split; [discriminate|exact E].
Qed.

(** A tariff loaded from CSV may use period numbers outside 0 .. 12 * periods - 1; their demand
    charge is then in the annual cost and in no month. *)
Theorem C14_csv_periods_refuted :
  exists file u r c b, from_csv file = Ok u /\ annual_cost r u = Ok c /\ detailed_cost r u = Ok b /\
    ~ qsum (bk_energy_peak b) + qsum (bk_energy_off b) + qsum (bk_demand_peak b) + qsum (bk_demand_off b)
      + 12 * bk_base b == c.
Proof.
  set (ch := repeat 100%Z (Z.to_nat 8760)).
  assert (L : length ch = Z.to_nat 8760) by apply repeat_length.
  assert (H0 : forall d, nth 0 ch d = 100%Z) by reflexivity.
  assert (AL : forall k, In k ch -> k = 100%Z) by (intros k; apply repeat_spec). clearbody ch.
  set (v := mkTracker ch [(100%Z, Some 5)] [(100%Z, Some (1#10))] [(100%Z, false)] [(100%Z, false)] 0 [] false).
  destruct (round_trip_gen v) as [RT _]; [cbn [v ut_chart]; lia|].
  destruct RT as (u & E & EC & EB & EH & K & _).
  { intros k Hk. cbn [v ut_chart] in Hk. apply AL in Hk. subst k. exists 5, (1#10). split; reflexivity. }
  cbn [v ut_chart ut_base] in EC, EB.
  assert (IN : In 100%Z ch) by (rewrite <- (H0 0%Z); apply nth_In; lia).
  destruct (K 100%Z IN) as (K1 & K2 & K3 & K4). cbn [v ut_demand ut_energy zget Z.eqb Pos.eqb] in K1, K2.
  assert (P0 : ut_period_at u 0 60 = Ok 100%Z).
  { unfold ut_period_at. change (hour_of_step 0 60) with (Ok 0%Z). cbn [bind]. rewrite EC.
    rewrite (py_nth_nonneg _ 0 100%Z); [reflexivity|lia|]. change (Z.to_nat 0) with 0%nat. rewrite (nth_error_nth' _ 0%Z) by lia. rewrite H0. reflexivity. }
  assert (E0 : ut_energy_at u 0 60 = Ok (Some (1#10))).
  { unfold ut_energy_at. change (hour_of_step 0 60) with (Ok 0%Z). cbn [bind]. rewrite EH, map_length. cbn [v ut_chart].
    unfold year_hours. replace (Z.of_nat (length ch) =? 8760)%Z with true by lia.
    rewrite (py_nth_nonneg _ 0 (1#10)); [reflexivity|lia|]. change (Z.to_nat 0) with 0%nat. rewrite nth_error_map.
    rewrite (nth_error_nth' _ 0%Z) by lia. rewrite H0. reflexivity. }
  assert (D0 : forall kw, ut_demand_charge u 100 kw = Ok (5 * kw)) by (intro kw; unfold ut_demand_charge; rewrite K1; reflexivity).
  exists (to_csv v), u, (ex_run [Some 1] []). eexists. eexists. split; [exact E|]. split; [|split].
  - unfold annual_cost, ex_run. cbn [sr_iv sr_tm_kw sr_power annual_loop step_kw nth_error or0 Z.of_nat].
    rewrite E0. cbn [bind step_cost]. rewrite P0. cbn [bind mapM put_max zget zset fst snd]. rewrite D0. cbn [bind qsum fold_right]. reflexivity.
  - unfold detailed_cost, ex_run. cbn [sr_iv sr_tm_kw sr_power detailed_loop step_kw nth_error or0 Z.of_nat].
    rewrite P0. cbn [bind]. rewrite E0. cbn [bind step_cost put_max zget zset detailed_demand].
    assert (PP : ((100 / periods_per_month u <? 12)%Z = false)) by (unfold periods_per_month; destruct (ut_include_discount u); reflexivity).
    rewrite PP, andb_false_r. cbn [bind]. unfold is_peak. rewrite K3. reflexivity.
  - cbn [bk_energy_peak bk_energy_off bk_demand_peak bk_demand_off bk_base]. unfold ut_yearly_base. rewrite EB. vm_compute. discriminate.
Qed.
Print Assumptions C14_csv_periods_refuted.

(** ** C15 *)

Theorem C15_sums_to_primary_cost : forall p r u c,
  from_params p = Ok u -> pr_pk_start p <> [] -> (0 < sr_iv r)%Z -> annual_cost (without_tm r) u = Ok c ->
  exists en dm, monthly_cost r u = Ok (en, dm, ut_base u) /\ length en = 12%nat /\ length dm = 12%nat /\
    qsum en + qsum dm + 12 * ut_base u == c.
Proof. exact monthly_total. Qed.
Print Assumptions C15_sums_to_primary_cost.

Theorem C15_no_maintenance : forall p r u c,
  from_params p = Ok u -> pr_pk_start p <> [] -> (0 < sr_iv r)%Z -> sr_tm_kw r = [] -> annual_cost r u = Ok c ->
  exists en dm, monthly_cost r u = Ok (en, dm, ut_base u) /\ qsum en + qsum dm + 12 * ut_base u == c.
Proof.
  intros p r u c H NE Hiv T A. assert (W : without_tm r = r) by (destruct r; cbn in *; subst; reflexivity).
  destruct (monthly_total p r u c H NE Hiv ltac:(rewrite W; exact A)) as (en & dm & E & _ & _ & V). eauto.
Qed.
Print Assumptions C15_no_maintenance.

(** With non-negative maintenance power and rates the breakdown never exceeds the annual cost. *)
Theorem C15_under_reports : forall p r u c,
  from_params p = Ok u -> pr_pk_start p <> [] -> (0 < sr_iv r)%Z -> annual_cost r u = Ok c ->
  (forall x, In x (sr_tm_kw r) -> 0 <= x) ->
  (forall t x, ut_energy_at u t (sr_iv r) = Ok (Some x) -> 0 <= x) ->
  (forall k d, zget (ut_demand u) k = Some (Some d) -> 0 <= d) ->
  exists en dm, monthly_cost r u = Ok (en, dm, ut_base u) /\ qsum en + qsum dm + 12 * ut_base u <= c.
Proof.
  intros p r u c H NE Hiv A T E D. destruct (annual_mono r u c A Hiv T E D) as (c' & A' & L).
  destruct (monthly_total p r u c' H NE Hiv A') as (en & dm & M & _ & _ & V). exists en, dm. split; [exact M|]. rewrite V. exact L.
Qed.
Print Assumptions C15_under_reports.

Lemma ex_two_first u : from_params ex_two = Ok u ->
  ut_energy_at u 0 60 = Ok (Some (1#10)) /\ exists k, ut_period_at u 0 60 = Ok k /\ forall kw, ut_demand_charge u k kw = Ok (5 * kw).
Proof.
  intro H. destruct (C10_hour_billed ex_two u 0 60 0 0%nat 0%nat OffPeak H) as (A & k & B & C & _).
  - split; lia.
  - apply (hour_month_intro 0 0); cbn; lia.
  - split; [cbn; lia|]. exists 0%Z, 5%Z. cbn. repeat split; lia.
  - split.
    + intros (x & y & E1 & E2 & [(B1 & B2 & _)|(B1 & _)]); cbn in E1, E2; inversion E1; inversion E2; subst; revert B1; try revert B2; unfold Qle, Qlt; cbn; lia.
    + intros [X _]. discriminate X.
  - split; [exact A|]. exists k. split; [exact B|exact C].
Qed.

Theorem C15_maintenance_omitted_refuted :
  exists p r u c, from_params p = Ok u /\ annual_cost r u = Ok c /\ (0 < sr_iv r)%Z /\
    exists en dm, monthly_cost r u = Ok (en, dm, ut_base u) /\ qsum en + qsum dm + 12 * ut_base u < c.
Proof.
  destruct ex_two_accepted as (u & H). destruct (ex_two_first u H) as (E1 & k & E2 & E3).
  exists ex_two, (ex_run [Some 2] [3]), u.
  assert (A : annual_cost (ex_run [Some 2] [3]) u = Ok (0 + (2 + 3) * (60 / 60) * (1#10) + (5 * (2 + 3) + 0) + ut_yearly_base u)).
  { unfold annual_cost, ex_run. cbn [sr_iv sr_tm_kw sr_power annual_loop step_kw nth_error or0 Z.of_nat].
    rewrite E1. cbn [bind step_cost]. rewrite E2. cbn [bind mapM put_max zget zset fst snd]. rewrite E3. cbn [bind qsum fold_right]. reflexivity. }
  assert (A' : annual_cost (without_tm (ex_run [Some 2] [3])) u = Ok (0 + 2 * (60 / 60) * (1#10) + (5 * 2 + 0) + ut_yearly_base u)).
  { unfold annual_cost, ex_run, without_tm. cbn [sr_iv sr_tm_kw sr_power annual_loop step_kw nth_error or0 Z.of_nat].
    rewrite E1. cbn [bind step_cost]. rewrite E2. cbn [bind mapM put_max zget zset fst snd]. rewrite E3. cbn [bind qsum fold_right]. reflexivity. }
  eexists. split; [exact H|]. split; [exact A|]. split; [reflexivity|].
  destruct (monthly_total ex_two (ex_run [Some 2] [3]) u _ H ltac:(discriminate) eq_refl A') as (en & dm & M & _ & _ & V).
  exists en, dm. split; [exact M|]. rewrite V. generalize (ut_yearly_base u). intro q. assert (E60 : 60 / 60 == 1) by reflexivity. rewrite E60. lra.
Qed.
Print Assumptions C15_maintenance_omitted_refuted.

(** ** C16 *)

(** The total is the energy that annual billing multiplies by rates. *)
Theorem C16_total : forall r, (length (sr_tm_kw r) <= length (sr_power r))%nat ->
  total_energy r == qsum (map (fun i => billed_kw r i * step_hours r) (seq 0 (length (sr_power r)))).
Proof. exact total_energy_billed. Qed.
Print Assumptions C16_total.

Theorem C16_additive : forall r r1 r2,
  sr_iv r1 = sr_iv r -> sr_iv r2 = sr_iv r ->
  sr_power r = sr_power r1 ++ sr_power r2 -> sr_tm_kw r = sr_tm_kw r1 ++ sr_tm_kw r2 ->
  total_energy r == total_energy r1 + total_energy r2.
Proof.
  intros r r1 r2 I1 I2 P T. unfold total_energy. cbv zeta. rewrite I1, I2, P, T, !map_app, !qsum_app. ring.
Qed.
Print Assumptions C16_additive.

Theorem C16_nonneg : forall r, (0 < sr_iv r)%Z ->
  (forall x, In (Some x) (sr_power r) -> 0 <= x) -> (forall x, In x (sr_tm_kw r) -> 0 <= x) ->
  0 <= total_energy r.
Proof.
  intros r Hiv P T. pose proof (hours_nonneg _ Hiv) as HN. unfold total_energy. cbv zeta.
  set (h := qz (sr_iv r) / 60) in *. clearbody h.
  assert (A : 0 <= qsum (map (fun p => or0 p * h) (sr_power r))).
  { apply qsum_nonneg. intros x Hx. apply in_map_iff in Hx. destruct Hx as ([y|] & <- & Hy).
    - apply Qmult_le_0_compat; [apply P; exact Hy|exact HN].
    - cbn [or0]. lra. }
  assert (B : 0 <= qsum (map (fun p => p * h) (sr_tm_kw r))).
  { apply qsum_nonneg. intros x Hx. apply in_map_iff in Hx. destruct Hx as (y & <- & Hy).
    apply Qmult_le_0_compat; [apply T; exact Hy|exact HN]. }
  lra.
Qed.
Print Assumptions C16_nonneg.

(** Monthly energies of an annual record whose step divides a day: each is the primary energy of
    the steps in that month, and together they are the total without maintenance power. *)
Theorem C16_monthly : forall r k m mon,
  sr_duration r = 525600%Z -> (0 < sr_iv r)%Z -> (k * sr_iv r = 1440)%Z -> (m < 12)%nat ->
  step_months (length (sr_power r)) (sr_iv r) mon ->
  exists en, monthly_energy r = Ok en /\ length en = 12%nat /\
    nth m en 0 == sum_if (length (sr_power r)) (fun i => Nat.eqb (mon i) m)
                    (fun i => or0 (nth i (sr_power r) None) * step_hours r).
Proof. exact monthly_energy_month. Qed.
Print Assumptions C16_monthly.

Theorem C16_monthly_total : forall r k,
  sr_duration r = 525600%Z -> (0 < sr_iv r)%Z -> (k * sr_iv r = 1440)%Z ->
  (Z.of_nat (length (sr_power r)) * sr_iv r <= 525600)%Z ->
  exists en, monthly_energy r = Ok en /\ qsum en == total_energy (without_tm r).
Proof. exact monthly_energy_total. Qed.
Print Assumptions C16_monthly_total.

(** So with maintenance power they do not add up to the total. *)
Theorem C16_maintenance_omitted_refuted :
  exists r en, sr_duration r = 525600%Z /\ sr_iv r = 60%Z /\ monthly_energy r = Ok en /\ qsum en < total_energy r.
Proof.
  exists (ex_run [Some 2; Some 3] [1; 1]). eexists. split; [reflexivity|]. split; [reflexivity|].
  split; [vm_compute; reflexivity|]. vm_compute. reflexivity.
Qed.
Print Assumptions C16_maintenance_omitted_refuted.

(** Reported peak demand: the largest recorded primary power; 0 if none was recorded.  It does not
    depend on the maintenance power. *)
Theorem C16_peak_demand : forall r,
  (forall x, In (Some x) (sr_power r) -> x <= peak_demand r) /\
  ((forall p, In p (sr_power r) -> p = None) -> peak_demand r = 0) /\
  ((exists x, In (Some x) (sr_power r)) -> In (Some (peak_demand r)) (sr_power r)) /\
  peak_demand (without_tm r) = peak_demand r.
Proof.
  intro r. unfold peak_demand. assert (SI : forall (x : Q) l, In x (somes l) <-> In (Some x) l).
  { intros x l. induction l as [|[y|] l IH]; cbn; [tauto| |]; rewrite IH.
    - split; [intros [->|H]; auto|intros [H|H]; [inversion H; auto|auto]].
    - split; [auto|intros [H|H]; [discriminate|exact H]]. }
  split; [|split; [|split; [|reflexivity]]].
  - intros x Hx. apply SI in Hx. destruct (somes (sr_power r)) as [|y l]; [destruct Hx|].
    destruct (qmaxl_ge y l) as [A B]. destruct Hx as [<-|Hx]; [exact A|apply B; exact Hx].
  - intros N. destruct (somes (sr_power r)) as [|y l] eqn:E; [reflexivity|].
    assert (IN : In y (somes (sr_power r))) by (rewrite E; left; reflexivity). apply SI in IN. specialize (N _ IN). discriminate.
  - intros (x & Hx). apply SI in Hx. destruct (somes (sr_power r)) as [|y l] eqn:E; [destruct Hx|].
    apply SI. rewrite E. destruct (qmaxl_in y l) as [->|A]; [left; reflexivity|right; exact A].
Qed.
Print Assumptions C16_peak_demand.

Example C16_case : let r := ex_run [Some 2; None; Some 3] [1] in
  (length (sr_tm_kw r) <= length (sr_power r))%nat /\ (24 * sr_iv r = 1440)%Z /\
  step_months (length (sr_power r)) (sr_iv r) (fun _ => 0%nat) /\ total_energy r == 6 /\ peak_demand r == 3.
Proof.
  split; [cbn; lia|]. split; [reflexivity|]. split; [|split; vm_compute; reflexivity].
  intros i Hi h [B _]. cbn [sr_power sr_iv ex_run length] in Hi, B. apply (hour_month_intro h 0); [lia|]. cbn [nth Nat.add month_hour_start]. lia.
Qed.

(** ** C17 *)

(** A finished simulation executed a prefix of the steps, in order and without gaps, and recorded
    exactly those.  No step but the last completes a too-cold run of more than [maxm] minutes; the
    run counts as stopped exactly if the last one does, and otherwise covers the whole duration. *)
Theorem C17_stops_exactly : forall St (stp : St -> Z -> Z -> res (St * step_out)) s0 supply dur thr maxm tm s' r,
  simulate stp s0 supply dur thr maxm tm = Ok (s', r) ->
  exists total iv outs,
    sim_times dur = Ok (total, iv) /\ sr_iv r = iv /\
    executed stp iv s0 0 outs s' /\ recorded outs r /\
    (Z.of_nat (length outs) <= total / iv)%Z /\
    (forall j, (j + 1 < length outs)%nat -> ~ too_long supply thr maxm iv outs j) /\
    (sr_stopped r = true <-> too_long supply thr maxm iv outs (length outs - 1)) /\
    (sr_stopped r = false -> Z.of_nat (length outs) = (total / iv)%Z).
Proof.
  intros St stp s0 supply dur thr maxm tm s' r H.
  destruct (simulate_inv stp s0 supply dur thr maxm tm s' r H) as (total & iv & outs & A1 & A2 & A3 & _ & _ & A4 & A5 & A6 & A7 & A8 & A9).
  exists total, iv, outs. split; [exact A1|]. split; [exact A3|]. split; [exact A4|]. split; [exact A5|]. split; [exact A6|].
  split; [exact A7|]. split; [|intro F; apply (A9 F)]. split; [intro T; apply (A8 T)|].
  intro TL. destruct (sr_stopped r) eqn:E; [reflexivity|]. exfalso. destruct (A9 eq_refl) as [_ B].
  destruct outs as [|o os]; [|apply B; [discriminate|exact TL]].
  destruct TL as (k & K1 & [K2 K3] & _). destruct (K3 0%nat ltac:(cbn [length] in K2 |- *; lia)) as (o & E0 & _). discriminate.
Qed.
Print Assumptions C17_stops_exactly.

(** Both durations, and only they, are accepted; a system that never raises yields a result. *)
Theorem C17_durations : forall dur,
  sim_times dur = Ok (4320, 1)%Z /\ dur = "3day"%string \/
  sim_times dur = Ok (525600, 10)%Z /\ dur = "annual"%string \/
  sim_times dur = Err ValueError /\ dur <> "3day"%string /\ dur <> "annual"%string.
Proof.
  intro dur. unfold sim_times. destruct (String.eqb_spec dur "3day") as [->|N]; [left; auto|].
  destruct (String.eqb_spec dur "annual") as [->|N']; [right; left; auto|right; right; auto].
Qed.
Print Assumptions C17_durations.

Theorem C17_terminates : forall St (stp : St -> Z -> Z -> res (St * step_out)) (P : St -> Prop) s0 supply dur thr maxm tm total iv,
  sim_times dur = Ok (total, iv) -> P s0 ->
  (forall s i v, P s -> exists s' o, stp s i v = Ok (s', o) /\ P s' /\ so_temps o <> [] /\ (length (so_temps o) <= 6)%nat) ->
  exists s' r, simulate stp s0 supply dur thr maxm tm = Ok (s', r).
Proof.
  intros St stp P s0 supply dur thr maxm tm total iv E HP T. unfold simulate. rewrite E. cbn [bind].
  destruct (sim_loop_total stp supply P T (Z.to_nat (total / iv)) 0 s0 (sr_new total iv thr maxm tm) HP eq_refl) as ([s' r] & E').
  exists s', r. exact E'.
Qed.
Print Assumptions C17_terminates.

(** A system that heats up for 2 steps, then delivers water 20 degrees too cold for good. *)
Definition ex_sys (usable : Q) (s : nat) (i iv : Z) : res (nat * step_out) :=
  let t := match s with S (S _) => 100 | _ => 120 end in
  Ok (S s, mkStep 1 usable 10 (Some 3) 50 50 [60; 70; 80; 90; 95; t] "normal" None None (if Z.even i then Some 2 else None) None).

Example C17_case : exists s' r, simulate (ex_sys 0) 0%nat 120 "3day" 5 10 false = Ok (s', r) /\
  length (sr_power r) = 13%nat /\ sr_stopped r = true.
Proof. eexists. eexists. split; [vm_compute; reflexivity|]. split; reflexivity. Qed.

(** ** C18 *)

Theorem C18_outage_minutes : forall St (stp : St -> Z -> Z -> res (St * step_out)) s0 supply dur thr maxm tm s' r,
  simulate stp s0 supply dur thr maxm tm = Ok (s', r) ->
  exists total iv outs, sim_times dur = Ok (total, iv) /\ executed stp iv s0 0 outs s' /\
    sr_outage r = (iv * Z.of_nat (length (outages outs)))%Z /\
    (forall mx, is_successful r mx = true <-> (iv * Z.of_nat (length (outages outs)) <= mx)%Z) /\
    (is_successful r 0 = true <-> forall o, In o outs -> 0 < so_usable o) /\
    length (sr_demand r) = length outs /\ length (sr_usable r) = length outs /\ length (sr_output r) = length outs /\
    length (sr_power r) = length outs /\ length (sr_oat r) = length outs /\ length (sr_inlet r) = length outs /\
    length (sr_mode r) = length outs /\
    (sr_stopped r = false -> (Z.of_nat (length outs) * iv = total)%Z).
Proof.
  intros St stp s0 supply dur thr maxm tm s' r H.
  destruct (simulate_inv stp s0 supply dur thr maxm tm s' r H) as (total & iv & outs & A1 & A2 & A3 & _ & _ & A4 & A5 & A6 & A7 & A8 & A9).
  exists total, iv, outs. split; [exact A1|]. split; [exact A4|].
  assert (O : sr_outage r = (iv * Z.of_nat (length (outages outs)))%Z) by (rewrite (rc_outage _ _ A5), A3; reflexivity).
  split; [exact O|].
  assert (S1 : forall mx, is_successful r mx = true <-> (iv * Z.of_nat (length (outages outs)) <= mx)%Z).
  { intro mx. unfold is_successful. rewrite O. apply Z.leb_le. }
  split; [exact S1|]. split.
  - rewrite S1. split.
    + intros L o Ho. assert (N : length (outages outs) = 0%nat) by nia. apply length_zero_iff_nil in N.
      destruct (Qlt_le_dec 0 (so_usable o)) as [Q0|Q0]; [exact Q0|]. exfalso.
      assert (IN : In o (outages outs)) by (apply filter_In; split; [exact Ho|apply Qle_bool_iff; exact Q0]). rewrite N in IN. destruct IN.
    + intro P. assert (N : outages outs = []).
      { destruct (outages outs) as [|o os] eqn:E; [reflexivity|]. exfalso.
        assert (IN : In o (outages outs)) by (rewrite E; left; reflexivity). apply filter_In in IN. destruct IN as [I1 I2].
        apply Qle_bool_iff in I2. specialize (P o I1). lra. }
      rewrite N. cbn. lia.
  - rewrite (rc_demand _ _ A5), (rc_usable _ _ A5), (rc_output _ _ A5), (rc_power _ _ A5), (rc_oat _ _ A5), (rc_inlet _ _ A5), (rc_mode _ _ A5), !map_length.
    repeat (split; [reflexivity|]). intro F. rewrite (proj1 (A9 F)).
    destruct (C17_durations dur) as [[D _]|[[D _]|[D _]]]; rewrite D in A1; inversion A1; reflexivity.
Qed.
Print Assumptions C18_outage_minutes.

(** The failure message names the minutes, the day of the first outage and the mean temperature
    at the top of the tank over the outage steps. *)
Theorem C18_message : forall St (stp : St -> Z -> Z -> res (St * step_out)) s0 supply dur thr maxm s' r,
  (forall s i iv s1 o, stp s i iv = Ok (s1, o) -> length (so_temps o) = 6%nat) ->
  simulate stp s0 supply dur thr maxm false = Ok (s', r) ->
  exists total iv outs, sim_times dur = Ok (total, iv) /\ executed stp iv s0 0 outs s' /\
    ((outages outs = [] /\ failure_message r = Ok MsgSucceeded) \/
     exists k avg, first_at (fun o => so_usable o <= 0) outs k /\
       failure_message r =
         Ok (MsgOutageOn (iv * Z.of_nat (length (outages outs))) (Z.of_nat k * iv / 1440 + 1) avg) /\
       avg * qz (Z.of_nat (length (outages outs))) == qsum (map (fun o => last (so_temps o) 0) (outages outs))).
Proof.
  intros St stp s0 supply dur thr maxm s' r T6 H.
  destruct (simulate_inv stp s0 supply dur thr maxm false s' r H) as (total & iv & outs & A1 & A2 & A3 & _ & AT & A4 & A5 & _).
  exists total, iv, outs. split; [exact A1|]. split; [exact A4|]. rewrite <- A3.
  apply failure_message_ok; [exact A5|exact AT|lia|].
  clear - A4 T6. revert A4. generalize 0%Z. generalize s0. induction outs as [|o os IH]; intros s i X o' Ho; [destruct Ho|].
  cbn [executed] in X. destruct X as (s1 & E & X). destruct Ho as [<-|Ho]; [eapply T6; eauto|eapply IH; eauto].
Qed.
Print Assumptions C18_message.

(** A run that was stopped early for cold water can still be "successful": the two criteria look at
    different quantities. *)
Theorem C18_stopped_yet_successful_refuted :
  exists (stp : nat -> Z -> Z -> res (nat * step_out)) s' r, simulate stp 0%nat 120 "3day" 5 10 false = Ok (s', r) /\
    sr_stopped r = true /\ is_successful r 0 = true /\ failure_message r = Ok MsgSucceeded.
Proof. exists (ex_sys 7). eexists. eexists. split; [vm_compute; reflexivity|]. repeat split. Qed.
Print Assumptions C18_stopped_yet_successful_refuted.

Example C18_case : exists s' r, simulate (ex_sys 0) 0%nat 120 "3day" 5 10 false = Ok (s', r) /\
  sr_outage r = 13%Z /\ is_successful r 12 = false /\ is_successful r 13 = true /\
  (forall s i iv s1 o, ex_sys 0 s i iv = Ok (s1, o) -> length (so_temps o) = 6%nat).
Proof.
  eexists. eexists. split; [vm_compute; reflexivity|]. split; [reflexivity|]. split; [reflexivity|]. split; [reflexivity|].
  intros s i iv s1 o E. unfold ex_sys in E. inversion E; subst. reflexivity.
Qed.

(** ** C19 *)

(** Maintenance powers are recorded at their own step exactly if no step without a value precedes
    one with a value. *)
Theorem C19_aligned_iff : forall St (stp : St -> Z -> Z -> res (St * step_out)) s0 supply dur thr maxm tm s' r,
  simulate stp s0 supply dur thr maxm tm = Ok (s', r) ->
  exists iv outs, executed stp iv s0 0 outs s' /\
    ((forall i o, nth_error outs i = Some o -> nth_error (sr_tm_kw r) i = so_tm_kw o) <->
     (forall i j a b, (i < j)%nat -> nth_error outs i = Some a -> nth_error outs j = Some b ->
        so_tm_kw a = None -> so_tm_kw b = None)).
Proof.
  intros St stp s0 supply dur thr maxm tm s' r H.
  destruct (simulate_inv stp s0 supply dur thr maxm tm s' r H) as (total & iv & outs & A1 & A2 & A3 & _ & _ & A4 & A5 & _).
  exists iv, outs. split; [exact A4|]. rewrite (rc_tm_kw _ _ A5).
  assert (NM : forall i, nth i (map so_tm_kw outs) None = match nth_error outs i with Some o => so_tm_kw o | None => None end).
  { intro i. destruct (nth_error outs i) as [o|] eqn:E.
    - apply nth_error_nth. apply map_nth_error. exact E.
    - apply nth_overflow. rewrite map_length. apply nth_error_None. exact E. }
  split.
  - intros Al i j a b Hij Ea Eb Na.
    assert (AA : forall k, nth_error (somes (map so_tm_kw outs)) k = nth k (map so_tm_kw outs) None).
    { intro k. rewrite NM. destruct (nth_error outs k) as [o|] eqn:E; [apply Al; exact E|].
      apply nth_error_None. apply nth_error_None in E. pose proof (somes_le (map so_tm_kw outs)) as L. rewrite map_length in L. lia. }
    pose proof (aligned_prefix _ AA i j Hij) as P. rewrite !NM, Ea, Eb in P. apply P. exact Na.
  - intros P i o E. rewrite somes_aligned; [rewrite NM, E; reflexivity|].
    intros a b Hab Na. rewrite NM in *. destruct (nth_error outs b) as [ob|] eqn:Eb; [|reflexivity].
    destruct (nth_error outs a) as [oa|] eqn:Ea; [eapply P; eauto|].
    apply nth_error_None in Ea. apply nth_error_Some_lt in Eb || (assert (b < length outs)%nat by (apply nth_error_Some; congruence)). lia.
Qed.
Print Assumptions C19_aligned_iff.

(** In particular it holds for a system that reports a value at every step. *)
Theorem C19_always_reported : forall St (stp : St -> Z -> Z -> res (St * step_out)) s0 supply dur thr maxm tm s' r,
  (forall s i iv s1 o, stp s i iv = Ok (s1, o) -> so_tm_kw o <> None) ->
  simulate stp s0 supply dur thr maxm tm = Ok (s', r) ->
  exists iv outs, executed stp iv s0 0 outs s' /\ length (sr_tm_kw r) = length (sr_power r) /\
    forall i o, nth_error outs i = Some o -> nth_error (sr_tm_kw r) i = so_tm_kw o.
Proof.
  intros St stp s0 supply dur thr maxm tm s' r N H.
  destruct (simulate_inv stp s0 supply dur thr maxm tm s' r H) as (total & iv & outs & A1 & A2 & A3 & _ & _ & A4 & A5 & _).
  assert (NO : forall o, In o outs -> so_tm_kw o <> None).
  { clear - A4 N. revert A4. generalize 0%Z. generalize s0. induction outs as [|o os IH]; intros s i X o' Ho; [destruct Ho|].
    cbn [executed] in X. destruct X as (s1 & E & X). destruct Ho as [<-|Ho]; [eapply N; eauto|eapply IH; eauto]. }
  assert (G : somes (map so_tm_kw outs) = map (fun o => or0 (so_tm_kw o)) outs).
  { apply somes_map_Some. intros o Ho. specialize (NO o Ho). destruct (so_tm_kw o); [reflexivity|congruence]. }
  exists iv, outs. split; [exact A4|]. rewrite (rc_tm_kw _ _ A5), (rc_power _ _ A5), G, !map_length. split; [reflexivity|].
  intros i o E. rewrite (map_nth_error _ _ _ E). specialize (NO o (nth_error_In _ _ E)). destruct (so_tm_kw o); [reflexivity|congruence].
Qed.
Print Assumptions C19_always_reported.

(** A system whose maintenance heater is off at odd steps: the power of step 2 is recorded at index 1. *)
Theorem C19_shifted_refuted :
  exists (stp : nat -> Z -> Z -> res (nat * step_out)) s' r outs, simulate stp 0%nat 120 "3day" 5 10 false = Ok (s', r) /\
    executed stp 1 0%nat 0 outs s' /\
    exists o, nth_error outs 1 = Some o /\ so_tm_kw o = None /\ nth_error (sr_tm_kw r) 1 = Some 2 /\ billed_kw r 1 == 5.
Proof.
  exists (ex_sys 0).
  assert (X : exists s' r, simulate (ex_sys 0) 0%nat 120 "3day" 5 10 false = Ok (s', r)) by (eexists; eexists; vm_compute; reflexivity).
  destruct X as (s' & r & E). destruct (simulate_inv _ _ _ _ _ _ _ _ _ E) as (total & iv & outs & A1 & _ & _ & _ & _ & A4 & A5 & _).
  inversion A1; subst total iv. exists s', r, outs. split; [exact E|]. split; [exact A4|].
  assert (R : r = match simulate (ex_sys 0) 0%nat 120 "3day" 5 10 false with Ok (_, x) => x | Err _ => r end) by (rewrite E; reflexivity).
  pose proof (rc_power _ _ A5) as RP. rewrite R in RP.
  destruct outs as [|o1 [|o2 os]]; [vm_compute in RP; discriminate|vm_compute in RP; discriminate|].
  cbn [executed] in A4. destruct A4 as (s1 & E1 & s2 & E2 & _). unfold ex_sys in E1, E2. inversion E1; subst s1. inversion E2.
  eexists. split; [reflexivity|]. split; [reflexivity|]. rewrite R. split; vm_compute; reflexivity.
Qed.
Print Assumptions C19_shifted_refuted.

Example C19_case : exists s' r, simulate (fun s i iv => match ex_sys 0 s i iv with Ok (s1, o) =>
    Ok (s1, mkStep 1 0 10 None 50 50 (so_temps o) "normal" None None (Some 2) None) | Err e => Err e end) 0%nat 120 "3day" 5 10 true = Ok (s', r) /\
  length (sr_tm_kw r) = 13%nat.
Proof. eexists. eexists. split; [vm_compute; reflexivity|reflexivity]. Qed.

(** ** C58 *)

(** The exported file has one row per executed step, holding that step's values. *)
Theorem C58_csv_rows : forall St (stp : St -> Z -> Z -> res (St * step_out)) s0 supply dur thr maxm tm s' r,
  (forall s i iv s1 o, stp s i iv = Ok (s1, o) -> length (so_temps o) = 6%nat) ->
  simulate stp s0 supply dur thr maxm tm = Ok (s', r) ->
  exists iv outs rows, executed stp iv s0 0 outs s' /\ sim_csv r = Ok rows /\ length rows = length outs /\
    forall i o, nth_error outs i = Some o -> nth_error rows i = Some (sim_csv_row iv i o).
Proof.
  intros St stp s0 supply dur thr maxm tm s' r T6 H.
  destruct (simulate_inv stp s0 supply dur thr maxm tm s' r H) as (total & iv & outs & A1 & A2 & A3 & _ & AT & A4 & A5 & _).
  assert (L6 : forall o, In o outs -> length (so_temps o) = 6%nat).
  { clear - A4 T6. revert A4. generalize 0%Z. generalize s0. induction outs as [|o os IH]; intros s i X o' Ho; [destruct Ho|].
    cbn [executed] in X. destruct X as (s1 & E & X). destruct Ho as [<-|Ho]; [eapply T6; eauto|eapply IH; eauto]. }
  set (dflt := mkStep 0 0 0 None 0 0 [] "" None None None None).
  exists iv, outs, (map (fun i => sim_csv_row iv i (nth i outs dflt)) (seq 0 (length outs))).
  split; [exact A4|]. split; [|split; [rewrite map_length, seq_length; reflexivity|]].
  - unfold sim_csv. rewrite (rc_demand _ _ A5), map_length. apply mapM_ok_map. intros i Hi. apply in_seq in Hi.
    rewrite <- A3. apply (csv_line_ok outs r i); [exact A5|exact L6|]. apply nth_error_nth'. lia.
  - intros i o E. rewrite (map_nth_error (fun i => sim_csv_row iv i (nth i outs dflt)) i (seq 0 (length outs)) (d := i)).
    + rewrite (nth_error_nth _ _ dflt E). reflexivity.
    + assert (B : (i < length outs)%nat) by (apply nth_error_Some; congruence).
      rewrite (nth_error_nth' _ 0%nat) by (rewrite seq_length; exact B). rewrite seq_nth by exact B. reflexivity.
Qed.
Print Assumptions C58_csv_rows.

Example C58_case : exists s' r rows, simulate (ex_sys 0) 0%nat 120 "3day" 5 10 false = Ok (s', r) /\
  sim_csv r = Ok rows /\ length rows = 13%nat.
Proof. eexists. eexists. eexists. split; [vm_compute; reflexivity|]. split; [vm_compute; reflexivity|reflexivity]. Qed.

(** ** Start of a simulation *)

(** The tank starts at a fraction between 0 and 1 of usable volume, whatever the controls. *)
Theorem C18_initial_fraction : forall hs, 0 <= initial_percent hs <= 1.
Proof.
  induction hs as [|h hs IH]; cbn [initial_percent]; [lra|].
  assert (B : forall x, 0 <= qmax 0 (qmin 1 x) <= 1) by (intro x; split; [apply qmax_l|apply qmax_lub; [lra|apply qmin_l]]).
  destruct (wh_map h) as [d|]; [|exact IH].
  destruct (dict_get d "normal"); [apply B|]. destruct d as [|[k c] d']; [exact IH|apply B].
Qed.
Print Assumptions C18_initial_fraction.

(** A design inlet temperature of exactly 0 is replaced by 50 for the initial state. *)
Theorem C18_zero_inlet_refuted : exists t, sim_inlet (Some t) <> t.
Proof. exists 0. discriminate. Qed.
Print Assumptions C18_zero_inlet_refuted.
