(** Properties C09-C12: utility tariffs. *)
From Coq Require Import Logic.FinFun.
From Verif Require Import Prelude M_Building S_Building M_Utility S_Utility.
From Verif Require Import L_Heater L_Building L_Utility L_Utility2.

(** Concrete tariffs used beside the theorems: two seasons without a discount window, and two
    seasons with an overnight one. *)
Definition ex_two : params :=
  mkParams (Some 30) [Some 16; Some 17] [Some 21; Some 20] [Some 12; Some 9] [Some (3#10); Some (1#4)]
    [Some 5; Some 4] [Some (1#10); Some (9#100)] [Some 0; Some 5]%Z [Some 5; Some 12]%Z
    false [None; None] [None; None] [None; None] [None; None].
Definition ex_three : params :=
  mkParams (Some 30) [Some 16; Some 17] [Some 21; Some 20] [Some 12; Some 9] [Some (3#10); Some (1#4)]
    [Some 5; Some 4] [Some (1#10); Some (9#100)] [Some 0; Some 5]%Z [Some 5; Some 12]%Z
    true [Some 22; Some 22] [Some 6; Some 6] [Some 1; Some 1] [Some (1#20); Some (1#25)].

Lemma ex_two_accepted : exists u, from_params ex_two = Ok u.
Proof.
  apply from_params_iff. split; [apply validate_params_iff; vm_compute; reflexivity|].
  unfold discounts_long. cbn. lia.
Qed.
Lemma ex_three_accepted : exists u, from_params ex_three = Ok u.
Proof.
  apply from_params_iff. split; [apply validate_params_iff; vm_compute; reflexivity|].
  unfold discounts_long. cbn. lia.
Qed.

(** *** C09 *)

(** The tariff is accepted exactly when it describes a whole year (and the discount lists have
    an entry per season); otherwise ValueError or, for short discount lists, IndexError. *)
Theorem C09_accepted_iff : forall p,
  (exists u, from_params p = Ok u) <-> valid_tariff p /\ discounts_long p.
Proof. exact from_params_iff. Qed.
Print Assumptions C09_accepted_iff.

Theorem C09_rejected : forall p,
  (~ valid_tariff p -> from_params p = Err ValueError) /\
  (valid_tariff p -> ~ discounts_long p -> from_params p = Err IndexError).
Proof. exact from_params_errors. Qed.
Print Assumptions C09_rejected.

(** An accepted non-empty tariff assigns every month to exactly one season. *)
Theorem C09_covers_year : forall p u m,
  from_params p = Ok u -> pr_pk_start p <> [] -> (m < 12)%nat ->
  exists i, covers p i m /\ forall j, covers p j m -> j = i.
Proof. intros p u m H. apply covers_exists. apply (from_params_iff p). exists u. exact H. Qed.
Print Assumptions C09_covers_year.

Example C09_case : (exists u, from_params ex_two = Ok u) /\ valid_tariff ex_two /\
  from_params (mkParams (Some 30) [Some 16; Some 17] [Some 21; Some 20] [Some 12; Some 9] [Some (3#10); Some (1#4)]
    [Some 5; Some 4] [Some (1#10); Some (9#100)] [Some 0; Some 5]%Z [Some 6; Some 12]%Z
    false [None; None] [None; None] [None; None] [None; None]) = Err ValueError.
Proof.
  split; [exact ex_two_accepted|]. split; [apply validate_params_iff; vm_compute; reflexivity|].
  vm_compute. reflexivity.
Qed.

(** The tariff with no season at all is accepted although it covers no month; every rate
    look-up then fails. *)
Theorem C09_empty_accepted_refuted :
  exists p u, from_params p = Ok u /\ (forall i m, ~ covers p i m) /\
    forall t iv h, step_in_hour t iv h -> (0 <= h < 8760)%Z ->
      ut_energy_at u t iv = Err KeyError /\
      exists k, ut_period_at u t iv = Ok k /\ forall kw, ut_demand_charge u k kw = Err ValueError.
Proof.
  set (p := mkParams (Some 30) [] [] [] [] [] [] [] [] false [] [] [] []).
  exists p. destruct (proj2 (from_params_iff p)) as (u & H).
  { split; [apply validate_params_iff; vm_compute; reflexivity|]. unfold discounts_long. cbn. lia. }
  exists u. split; [exact H|]. split; [intros i m [C _]; cbn in C; lia|].
  assert (U : u = mkTracker (repeat 0%Z (Z.to_nat year_hours)) [] [] [] [] 30 [] false).
  { apply ok_inj. rewrite <- H. reflexivity. }
  intros t iv h St Hh.
  assert (N : py_nth (ut_chart u) h = Ok 0%Z).
  { rewrite U. cbn [ut_chart]. rewrite chart_lookup by (rewrite repeat_length; unfold year_hours; lia).
    f_equal. apply nth_repeat. }
  unfold ut_energy_at, ut_period_at. rewrite (hour_of_step_ok _ _ _ St). cbn [bind]. rewrite N.
  assert (BH : ut_by_hour u = []) by (rewrite U; reflexivity).
  assert (EN : ut_energy u = []) by (rewrite U; reflexivity).
  assert (DE : ut_demand u = []) by (rewrite U; reflexivity).
  rewrite BH, EN. split; [reflexivity|]. exists 0%Z. split; [reflexivity|].
  intro kw. unfold ut_demand_charge. rewrite DE. reflexivity.
Qed.
Print Assumptions C09_empty_accepted_refuted.

(** *** C10 *)

(** The rates of every hour of the year: [m] the month of hour [h], [i] the season covering it
    and [w] the window of the hour of day. *)
Theorem C10_hour_billed : forall p u t iv h m i w,
  from_params p = Ok u -> step_in_hour t iv h -> hour_month h m -> covers p i m ->
  billed_in p i (h mod 24) w ->
  ut_energy_at u t iv = Ok (energy_rate p i w) /\
  exists k, ut_period_at u t iv = Ok k /\
    (forall kw, ut_demand_charge u k kw =
       match demand_rate p i w with Some d => Ok (d * kw) | None => Err TypeError end) /\
    zget (ut_peak u) k = Some (is_peak_window w) /\
    zget (ut_disc u) k = Some (is_discount_window w).
Proof.
  intros p u t iv h m i w H St Hm Hc Hw.
  destruct (c10_core p u t iv h m i w H St Hm Hc Hw) as (A & k & B1 & _ & B3 & B4 & B5).
  split; [exact A|]. exists k. split; [exact B1|]. split; [exact B3|]. split; assumption.
Qed.
Print Assumptions C10_hour_billed.

(** Every step of the year is in exactly one such case. *)
Theorem C10_case_unique : forall p u t iv,
  from_params p = Ok u -> pr_pk_start p <> [] -> (0 < iv)%Z -> (0 <= t * iv < 60 * 8760)%Z ->
  exists h m i w, (step_in_hour t iv h /\ hour_month h m /\ covers p i m /\ billed_in p i (h mod 24) w) /\
    forall h' m' i' w', step_in_hour t iv h' -> hour_month h' m' -> covers p i' m' ->
      billed_in p i' (h' mod 24) w' -> h' = h /\ m' = m /\ i' = i /\ w' = w.
Proof.
  intros p u t iv H NE Hiv Ht.
  destruct (step_hour_exists t iv ltac:(nia) Hiv) as (h & H0 & St).
  assert (Hh : (h < 8760)%Z) by (destruct St; lia).
  destruct (hour_month_ex h ltac:(lia)) as (m & Hm).
  destruct (covers_exists p m (proj1 (proj1 (from_params_iff p) (ex_intro _ u H))) NE (proj1 Hm)) as (i & Ci & Ui).
  destruct (billed_exists p i (h mod 24)) as (w & Hw & Uw).
  exists h, m, i, w. split; [auto|].
  intros h' m' i' w' St' Hm' Ci' Hw'.
  assert (h' = h) by (destruct St, St'; lia). subst h'.
  assert (m' = m) by (eapply in_month_unique; eauto). subst m'.
  assert (i' = i) by auto. subst i'. auto.
Qed.
Print Assumptions C10_case_unique.

(** Two steps share a demand period exactly when they share month and window. *)
Theorem C10_period_identity : forall p u t1 t2 iv1 iv2 h1 h2 m1 m2 i1 i2 w1 w2,
  from_params p = Ok u ->
  step_in_hour t1 iv1 h1 -> hour_month h1 m1 -> covers p i1 m1 -> billed_in p i1 (h1 mod 24) w1 ->
  step_in_hour t2 iv2 h2 -> hour_month h2 m2 -> covers p i2 m2 -> billed_in p i2 (h2 mod 24) w2 ->
  (ut_period_at u t1 iv1 = ut_period_at u t2 iv2 <-> m1 = m2 /\ w1 = w2).
Proof.
  intros p u t1 t2 iv1 iv2 h1 h2 m1 m2 i1 i2 w1 w2 H S1 M1 C1 W1 S2 M2 C2 W2.
  destruct (c10_core p u t1 iv1 h1 m1 i1 w1 H S1 M1 C1 W1) as (_ & k1 & -> & -> & _).
  destruct (c10_core p u t2 iv2 h2 m2 i2 w2 H S2 M2 C2 W2) as (_ & k2 & -> & -> & _).
  split; [|intros [-> ->]; reflexivity].
  intro E. apply ok_inj in E.
  apply key_unique in E; [|apply widx_range; eapply billed_wok; eauto|apply widx_range; eapply billed_wok; eauto].
  destruct E as [E1 E2]. split; [lia|]. destruct w1, w2; cbn in E2; try lia; reflexivity.
Qed.
Print Assumptions C10_period_identity.

(** The month of a period is its number divided by the periods per month (2, or 3 with a
    discount window), which is how the cost reports assign demand charges to months. *)
Theorem C10_period_month : forall p u t iv h m i w,
  from_params p = Ok u -> step_in_hour t iv h -> hour_month h m -> covers p i m ->
  billed_in p i (h mod 24) w ->
  exists k, ut_period_at u t iv = Ok k /\
    (k / (if ut_include_discount u then 3 else 2) = Z.of_nat m)%Z.
Proof.
  intros p u t iv h m i w H St Hm Hc Hw.
  destruct (c10_core p u t iv h m i w H St Hm Hc Hw) as (_ & k & B1 & B2 & _). exists k. split; [exact B1|].
  rewrite (tf_disc p u (from_params_facts p u H (covers_ne _ _ _ Hc))).
  pose proof (widx_range _ _ (billed_wok _ _ _ _ Hw)) as R. rewrite B2.
  change (if pr_include_discount p then 3%Z else 2%Z) with (npk (pr_include_discount p)).
  symmetry. apply (Z.div_unique _ _ _ (widx w)); [left; lia|lia].
Qed.
Print Assumptions C10_period_month.

(** June 3rd 23:00 in steps of 15 minutes: the overnight discount of the second season. *)
Example C10_case :
  step_in_hour 14780 15 3695 /\ hour_month 3695 5 /\ covers ex_three 1 5 /\
  billed_in ex_three 1 (3695 mod 24) Discount /\ energy_rate ex_three 1 Discount = Some (1#25).
Proof.
  split; [unfold step_in_hour; lia|]. split; [apply hour_month_intro; cbn; lia|].
  split; [split; [cbn; lia|]; exists 5%Z, 12%Z; cbn; repeat split; lia|].
  change (3695 mod 24)%Z with 23%Z. split; [|reflexivity]. split.
  - intros (x & y & E1 & E2 & [H|H]); cbn in E1, E2; inversion E1; inversion E2; subst x y; unfold qz in H.
    + destruct H as (_ & _ & H). revert H. apply Qle_not_lt. unfold Qle. cbn. lia.
    + destruct H as (H & _). revert H. apply Qle_not_lt. unfold Qle. cbn. lia.
  - split; [reflexivity|]. exists 22, 6. cbn. split; [reflexivity|]. split; [reflexivity|]. right. unfold Qlt, Qle. cbn. lia.
Qed.

(** *** C11 *)

(** Saving and loading a tariff without discount window keeps the base charge, the rates and
    period of every step of the year, and each period's demand charge and peak flag. *)
Theorem C11_round_trip : forall p u,
  from_params p = Ok u -> pr_pk_start p <> [] -> pr_include_discount p = false ->
  exists v, from_csv (to_csv u) = Ok v /\ ut_base v = ut_base u /\
    forall t iv h, step_in_hour t iv h -> (0 <= h < 8760)%Z ->
      ut_energy_at v t iv = ut_energy_at u t iv /\
      exists k, ut_period_at u t iv = Ok k /\ ut_period_at v t iv = Ok k /\
        (forall kw, ut_demand_charge v k kw = ut_demand_charge u k kw) /\
        zget (ut_peak v) k = zget (ut_peak u) k.
Proof.
  intros p u H NE ND. pose proof (from_params_facts p u H NE) as T.
  assert (R : forall k, In k (ut_chart u) -> rated u k /\ exists m w, (m < 12)%nat /\ wok (pr_include_discount p) w /\
     k = (Z.of_nat m * npk (pr_include_discount p) + widx w)%Z).
  { apply params_rated; auto. congruence. }
  destruct (round_trip_gen u (tf_len p u T)) as [RT _].
  destruct (RT (fun k Hk => proj1 (R k Hk))) as (v & E & C & Ba & _ & KV & _).
  exists v. split; [exact E|]. split; [exact Ba|]. intros t iv h St Hh.
  destruct (round_trip_steps u v t iv h (tf_len p u T) (tf_hour p u T) (fun k Hk => proj1 (R k Hk)) E St Hh) as [SP SE].
  split; [exact SE|].
  pose proof (tf_len p u T) as L.
  exists (nth (Z.to_nat h) (ut_chart u) 0%Z).
  assert (PU : ut_period_at u t iv = Ok (nth (Z.to_nat h) (ut_chart u) 0%Z)).
  { unfold ut_period_at. rewrite (hour_of_step_ok _ _ _ St). cbn [bind]. apply chart_lookup. lia. }
  split; [exact PU|]. split; [rewrite SP; exact PU|].
  assert (IN : In (nth (Z.to_nat h) (ut_chart u) 0%Z) (ut_chart u)) by (apply nth_In; lia).
  destruct (KV _ IN) as (K1 & _ & K3 & _).
  split; [intro kw; unfold ut_demand_charge; rewrite K1; reflexivity|].
  destruct (hour_month_ex h Hh) as (m & Hm).
  destruct (proj1 (from_params_iff p) (ex_intro _ u H)) as [V _].
  destruct (covers_exists p m V NE (proj1 Hm)) as (i & Ci & _).
  destruct (billed_exists p i (h mod 24)) as (w & Hw & _).
  destruct (c10_core p u t iv h m i w H St Hm Ci Hw) as (_ & k & B1 & B2 & _ & B4 & _).
  rewrite PU in B1. apply ok_inj in B1. rewrite B1. rewrite B1 in K3. rewrite K3, B4. f_equal.
  rewrite B2, ND. cbn [npk]. pose proof (billed_wok _ _ _ _ Hw) as WO.
  destruct w; cbn [widx].
  - replace (Z.of_nat m * 2 + 0)%Z with (0 + Z.of_nat m * 2)%Z by lia. rewrite Z.mod_add by lia. reflexivity.
  - replace (Z.of_nat m * 2 + 1)%Z with (1 + Z.of_nat m * 2)%Z by lia. rewrite Z.mod_add by lia. reflexivity.
  - specialize (WO eq_refl). congruence.
Qed.
Print Assumptions C11_round_trip.

(** With a discount window the rates and periods survive too, but the flags do not: a loaded
    period is never marked discount, and it is marked peak exactly when its number is odd, so its
    peak flag is right only in months of even number (January = 0). *)
Theorem C11_discount_round_trip : forall p u,
  from_params p = Ok u -> pr_pk_start p <> [] -> pr_include_discount p = true -> discount_rates_given p ->
  exists v, from_csv (to_csv u) = Ok v /\ ut_base v = ut_base u /\
    forall t iv h m i w, step_in_hour t iv h -> hour_month h m -> covers p i m -> billed_in p i (h mod 24) w ->
      ut_energy_at v t iv = ut_energy_at u t iv /\
      exists k, ut_period_at u t iv = Ok k /\ ut_period_at v t iv = Ok k /\
        (forall kw, ut_demand_charge v k kw = ut_demand_charge u k kw) /\
        (zget (ut_peak v) k = zget (ut_peak u) k <-> Nat.even m = true) /\
        (zget (ut_disc v) k = zget (ut_disc u) k <-> w <> Discount).
Proof.
  intros p u H NE YD DG. pose proof (from_params_facts p u H NE) as T.
  pose proof (params_rated p u H NE DG) as R.
  destruct (round_trip_gen u (tf_len p u T)) as [RT _].
  destruct (RT (fun k Hk => proj1 (R k Hk))) as (v & E & C & Ba & _ & KV & _).
  exists v. split; [exact E|]. split; [exact Ba|]. intros t iv h m i w St Hm Ci Hw.
  pose proof (hour_month_year h m Hm) as Hh.
  destruct (round_trip_steps u v t iv h (tf_len p u T) (tf_hour p u T) (fun k Hk => proj1 (R k Hk)) E St Hh) as [SP SE].
  split; [exact SE|]. pose proof (tf_len p u T) as L.
  destruct (c10_core p u t iv h m i w H St Hm Ci Hw) as (_ & k & B1 & B2 & _ & B4 & B5).
  exists k. split; [exact B1|]. split; [rewrite SP; exact B1|].
  assert (IN : In k (ut_chart u)).
  { unfold ut_period_at in B1. rewrite (hour_of_step_ok _ _ _ St) in B1. cbn [bind] in B1.
    rewrite chart_lookup in B1 by lia. apply ok_inj in B1. rewrite <- B1. apply nth_In. lia. }
  destruct (KV _ IN) as (K1 & _ & K3 & K4).
  split; [intro kw; unfold ut_demand_charge; rewrite K1; reflexivity|].
  rewrite K3, K4, B4, B5. clear - B2 YD. rewrite YD in B2. cbn [npk] in B2. split.
  - assert (P : Nat.even m = (Z.of_nat m mod 2 =? 0)%Z).
    { apply eq_iff_eq_true. rewrite Nat.even_spec, Z.eqb_eq. split.
      - intros (q & ->). replace (Z.of_nat (2 * q)) with (0 + Z.of_nat q * 2)%Z by lia. rewrite Z.mod_add by lia. reflexivity.
      - intro E2. pose proof (Z.div_mod (Z.of_nat m) 2 ltac:(lia)) as D2. exists (Z.to_nat (Z.of_nat m / 2)). lia. }
    rewrite P. subst k.
    assert (MB := Z.mod_pos_bound (Z.of_nat m) 2 ltac:(lia)).
    assert (PW : forall c, ((Z.of_nat m * 3 + c) mod 2 = (Z.of_nat m mod 2 + c) mod 2)%Z).
    { intro c. rewrite (Z.add_mod (Z.of_nat m mod 2) c 2), Z.mod_mod, <- Z.add_mod by lia.
      replace (Z.of_nat m * 3 + c)%Z with ((Z.of_nat m + c) + Z.of_nat m * 2)%Z by lia. apply Z.mod_add. lia. }
    rewrite PW. assert (M2 : (Z.of_nat m mod 2 = 0 \/ Z.of_nat m mod 2 = 1)%Z) by lia.
    destruct M2 as [-> | ->]; destruct w; cbn; split; congruence.
  - destruct w; split; congruence.
Qed.
Print Assumptions C11_discount_round_trip.

(** So the peak flag of an off-peak period is lost for this tariff (February at noon). *)
Theorem C11_flags_refuted :
  exists p u v k, from_params p = Ok u /\ from_csv (to_csv u) = Ok v /\
    ut_period_at u 756 60 = Ok k /\ zget (ut_peak u) k = Some false /\ zget (ut_peak v) k = Some true.
Proof.
  destruct ex_three_accepted as (u & H).
  destruct (C11_discount_round_trip ex_three u H) as (v & E & _ & K); [discriminate|reflexivity| |].
  { intros _ i Hi. cbn in Hi. destruct i as [|[|i]]; [split; discriminate|split; discriminate|lia]. }
  assert (NW : forall x y, in_window 12 (Some x) (Some y) -> (x == 16 /\ y == 21) \/ (x == 22 /\ y == 6) -> False).
  { intros x y (x' & y' & E1 & E2 & B) A. inversion E1; inversion E2; subst x' y'. unfold qz in B. change (inject_Z 12) with 12 in B.
    destruct A as [[A1 A2]|[A1 A2]]; rewrite A1, A2 in B; destruct B as [(B1 & B2 & B3)|(B1 & [B2|B2])]; revert B1 B2; try revert B3; unfold Qle, Qlt; cbn; lia. }
  assert (BO : billed_in ex_three 0 (756 mod 24) OffPeak).
  { change (756 mod 24)%Z with 12%Z. split.
    - intro C. apply (NW _ _ C). left. split; reflexivity.
    - intros [_ C]. apply (NW _ _ C). right. split; reflexivity. }
  assert (HM : hour_month 756 1) by (apply hour_month_intro; cbn; lia).
  assert (CV : covers ex_three 0 1).
  { split; [cbn; lia|]. exists 0%Z, 5%Z. cbn. repeat split; lia. }
  assert (ST : step_in_hour 756 60 756) by (unfold step_in_hour; lia).
  destruct (K 756%Z 60%Z 756%Z 1%nat 0%nat OffPeak ST HM CV BO) as (_ & k & P1 & _ & _ & PK & _).
  destruct (C10_hour_billed ex_three u 756 60 756 1 0 OffPeak H ST HM CV BO) as (_ & k' & P1' & _ & F & _).
  assert (k' = k) by congruence. subst k'. cbn in F.
  exists ex_three, u, v, k. split; [exact H|]. split; [exact E|]. split; [exact P1|]. split; [exact F|].
  destruct (round_trip_gen u (tf_len _ _ (from_params_facts _ _ H ltac:(discriminate)))) as [RT _].
  assert (R : forall k, In k (ut_chart u) -> rated u k).
  { intros x Hx. refine (proj1 (params_rated ex_three u H _ _ x Hx)); [discriminate|].
    intros _ i Hi. cbn in Hi. destruct i as [|[|i]]; [split; discriminate|split; discriminate|lia]. }
  destruct (RT R) as (v' & E' & C & _ & _ & KV & _). assert (v' = v) by congruence. subst v'.
  assert (IN : In k (ut_chart u)).
  { unfold ut_period_at in P1. rewrite (hour_of_step_ok _ _ _ ST) in P1. cbn [bind] in P1.
    rewrite chart_lookup in P1 by (rewrite (tf_len _ _ (from_params_facts _ _ H ltac:(discriminate))); lia).
    apply ok_inj in P1. rewrite <- P1. apply nth_In. pose proof (tf_len _ _ (from_params_facts _ _ H ltac:(discriminate))). lia. }
  destruct (KV _ IN) as (_ & _ & K3 & _). rewrite K3. rewrite K3, F in PK.
  destruct (k mod 2 =? 1)%Z; [reflexivity|]. exfalso. destruct PK as [PK _]. specialize (PK eq_refl). discriminate.
Qed.
Print Assumptions C11_flags_refuted.

(** A tariff that bills some hour at a missing discount rate is saved but cannot be loaded. *)
Theorem C11_missing_rate : forall p u h m i,
  from_params p = Ok u -> hour_month h m -> covers p i m -> billed_in p i (h mod 24) Discount ->
  energy_rate p i Discount = None \/ demand_rate p i Discount = None ->
  from_csv (to_csv u) = Err ValueError.
Proof.
  intros p u h m i H Hm Ci Hw Mi.
  pose proof (from_params_facts p u H (covers_ne _ _ _ Ci)) as T.
  pose proof (hour_month_year h m Hm) as Hh. pose proof (tf_len p u T) as L.
  apply (round_trip_gen u L). exists (nth (Z.to_nat h) (ut_chart u) 0%Z). split; [apply nth_In; lia|].
  rewrite (tf_chart p u T h m i Discount Hm Ci Hw).
  destruct (tf_rates p u T m i Discount (proj1 Hm) Ci (billed_wok _ _ _ _ Hw)) as (R1 & R2 & _). cbv zeta in R1, R2.
  intros (d & e & F1 & F2). rewrite R1 in F1. rewrite R2 in F2. destruct Mi; congruence.
Qed.
Print Assumptions C11_missing_rate.

(** Every row of a saved file carries the month, day of month and hour of the hour it is for. *)
Theorem C11_dates : forall u h row,
  Z.of_nat (length (ut_chart u)) = 8760%Z ->
  nth_error (snd (to_csv u)) h = Some row ->
  exists m d, nth_error row 0 = Some (CDate (Z.of_nat m) d (Z.of_nat h mod 24)) /\
    hour_month (Z.of_nat h) m /\ (1 <= d)%Z /\
    (Z.of_nat h / 24 = nth m month_start_day 0 + (d - 1))%Z.
Proof.
  intros u h row L E. unfold to_csv in E. cbn [snd] in E.
  rewrite firstn_all' in E by (unfold year_hours; lia).
  apply (csv_dates u (ut_chart u) 0 0%nat 1 [] h row) in E; [exact E|lia|lia|left; auto].
Qed.
Print Assumptions C11_dates.

Example C11_case : exists u, from_params ex_two = Ok u /\ pr_pk_start ex_two <> [] /\
  pr_include_discount ex_two = false /\ Z.of_nat (length (ut_chart u)) = 8760%Z.
Proof.
  destruct ex_two_accepted as (u & H). exists u. split; [exact H|]. split; [discriminate|]. split; [reflexivity|].
  apply (tf_len ex_two u). apply from_params_facts; [exact H|discriminate].
Qed.

(** A file whose energy rate changes from hour to hour within one period loads, but saving
    it keeps only the period's first rate. *)
Lemma csv_loop_single d : forall es v, zget (ut_demand v) 0%Z = Some (Some d) -> ut_include_discount v = false ->
  csv_loop 2 3 1 v (map (fun e => [CText; CInt 0; CNum e; CNum d; CBlank]) es) =
  Ok (mkTracker (ut_chart v ++ repeat 0%Z (length es)) (ut_demand v) (ut_energy v) (ut_peak v) (ut_disc v)
        (ut_base v) (ut_by_hour v ++ es) false).
Proof.
  induction es as [|e es IH]; intros v Hd Hi.
  - cbn. rewrite !app_nil_r. destruct v; cbn in *; subst; reflexivity.
  - cbn [map csv_loop]. unfold csv_row at 1. cbn [nth_error cell_int nth cell_float bind]. unfold zhas. rewrite Hd. cbn [bind].
    rewrite IH by (cbn; auto). cbn [ut_chart ut_demand ut_energy ut_peak ut_disc ut_base ut_by_hour length repeat].
    rewrite <- !app_assoc. reflexivity.
Qed.

Theorem C11_hourly_rates_refuted :
  exists file v v', from_csv file = Ok v /\ from_csv (to_csv v) = Ok v' /\
    ut_energy_at v 1 60 = Ok (Some 2) /\ ut_energy_at v' 1 60 = Ok (Some 1).
Proof.
  set (es := 2 :: repeat 1 (Z.to_nat 8758)).
  assert (LE : length es = Z.to_nat 8759) by (unfold es; cbn [length]; rewrite repeat_length; lia).
  set (rows := [CText; CInt 0; CNum 1; CNum 5; CNum 30] :: map (fun e => [CText; CInt 0; CNum e; CNum 5; CBlank]) es).
  set (v := mkTracker (0%Z :: repeat 0%Z (length es)) [(0%Z, Some 5)] [(0%Z, Some 1)] [(0%Z, false)] [(0%Z, false)]
              30 (1 :: es) false).
  assert (F : from_csv (csv_header, rows) = Ok v).
  { unfold from_csv. assert (LR : Z.of_nat (length rows) = 8760%Z).
    { unfold rows. cbn [length]. rewrite map_length, LE. lia. }
    rewrite LR. change (8760 =? year_hours)%Z with true. cbn [negb].
    destruct csv_header_cols as (-> & -> & -> & ->).
    unfold rows at 1. cbn [nth nth_error cell_float].
    unfold rows. cbn [csv_loop]. unfold csv_row at 1. cbn [nth_error cell_int nth cell_float bind].
    cbn [zhas zget ut_demand ut_energy]. unfold zhas. cbn [zget bind].
    rewrite (csv_loop_single 5); [|reflexivity|reflexivity]. reflexivity. }
  assert (L : Z.of_nat (length (ut_chart v)) = 8760%Z).
  { unfold v. cbn [ut_chart length]. rewrite repeat_length, LE. lia. }
  destruct (round_trip_gen v L) as [RT _]. destruct RT as (v' & E & C & _ & BY & _).
  { intros k Hk. unfold v in Hk. cbn [ut_chart] in Hk. destruct Hk as [<-|Hk]; [|apply repeat_spec in Hk; subst k];
      exists 5, 1; split; reflexivity. }
  exists (csv_header, rows), v, v'. split; [exact F|]. split; [exact E|].
  assert (ST : step_in_hour 1 60 1) by (unfold step_in_hour; lia).
  unfold ut_energy_at. rewrite (hour_of_step_ok _ _ _ ST). cbn [bind].
  assert (LB : length (ut_by_hour v) = Z.to_nat 8760).
  { unfold v. cbn [ut_by_hour length]. rewrite LE. lia. }
  rewrite LB, BY, map_length. unfold year_hours. rewrite L, Z2Nat.id by lia.
  change (8760 =? 8760)%Z with true. cbv iota. split.
  - rewrite (py_nth_nonneg _ 1 2); [reflexivity|lia|]. reflexivity.
  - rewrite (py_nth_nonneg _ 1 1); [reflexivity|lia|]. unfold v, es. reflexivity.
Qed.
Print Assumptions C11_hourly_rates_refuted.

(** *** C12 *)

(** Every step of the year has a demand period that is a key of the tracker and has a charge
    proportional to the demand. *)
Theorem C12_total : forall p u t iv h,
  from_params p = Ok u -> pr_pk_start p <> [] -> discount_rates_given p ->
  step_in_hour t iv h -> (0 <= h < 8760)%Z ->
  exists k d, ut_period_at u t iv = Ok k /\ In k (ut_keys u) /\
    forall kw, ut_demand_charge u k kw = Ok (d * kw).
Proof.
  intros p u t iv h H NE DG St Hh. pose proof (from_params_facts p u H NE) as T. pose proof (tf_len p u T) as L.
  set (k := nth (Z.to_nat h) (ut_chart u) 0%Z).
  assert (IN : In k (ut_chart u)) by (apply nth_In; lia).
  destruct (params_rated p u H NE DG k IN) as ((d & e & Ed & Ee) & _).
  exists k, d. split.
  - unfold ut_period_at. rewrite (hour_of_step_ok _ _ _ St). cbn [bind]. apply chart_lookup. lia.
  - split.
    + unfold ut_keys. apply zget_in_keys. rewrite Ed. discriminate.
    + intro kw. unfold ut_demand_charge. rewrite Ed. reflexivity.
Qed.
Print Assumptions C12_total.

(** For any tracker: unknown keys raise ValueError, known keys do not. *)
Theorem C12_unknown_key : forall u k kw,
  ut_demand_charge u k kw = Err ValueError <-> ~ In k (ut_keys u).
Proof.
  intros u k kw. unfold ut_demand_charge, ut_keys. rewrite <- zget_in_keys.
  destruct (zget (ut_demand u) k) as [[d|]|]; split; try discriminate; try congruence.
  - intro C. exfalso. apply C. discriminate.
  - intro C. exfalso. apply C. discriminate.
Qed.
Print Assumptions C12_unknown_key.

(** The keys of an accepted tariff are 0 .. 24 (or 36)-1: one per month and window. *)
Theorem C12_keys : forall p u, from_params p = Ok u -> pr_pk_start p <> [] ->
  NoDup (ut_keys u) /\
  forall k, In k (ut_keys u) <-> (0 <= k < 12 * if ut_include_discount u then 3 else 2)%Z.
Proof.
  intros p u H NE. pose proof (from_params_facts p u H NE) as T.
  rewrite (tf_keys p u T), (tf_disc p u T). split.
  - unfold zrange. apply Coq.Logic.FinFun.Injective_map_NoDup; [|apply seq_NoDup]. intros a b E. lia.
  - intro k. rewrite zrange_in. unfold npk. destruct (pr_include_discount p); lia.
Qed.
Print Assumptions C12_keys.

(** Steps after the end of the year raise IndexError instead of being billed at some rate. *)
Theorem C12_beyond_year : forall p u t iv h,
  from_params p = Ok u -> step_in_hour t iv h -> (8760 <= h)%Z ->
  ut_energy_at u t iv = Err IndexError /\ ut_period_at u t iv = Err IndexError.
Proof. exact beyond_year. Qed.
Print Assumptions C12_beyond_year.

(** A discount window without demand rate: the charge of its periods raises TypeError. *)
Theorem C12_missing_rate_refuted :
  exists p u k, from_params p = Ok u /\ In k (ut_keys u) /\ forall kw, ut_demand_charge u k kw = Err TypeError.
Proof.
  set (p := mkParams (Some 30) [Some 16] [Some 21] [Some 12] [Some (3#10)] [Some 5] [Some (1#10)]
              [Some 0%Z] [Some 12%Z] true [Some 22] [Some 6] [None] [Some (1#20)]).
  destruct (proj2 (from_params_iff p)) as (u & H).
  { split; [apply validate_params_iff; vm_compute; reflexivity|]. unfold discounts_long. cbn. lia. }
  exists p, u, 2%Z. split; [exact H|].
  assert (T : tariff_facts p u) by (apply from_params_facts; [exact H|discriminate]).
  assert (C : covers p 0 0) by (split; [cbn; lia|]; exists 0%Z, 12%Z; cbn; repeat split; lia).
  destruct (tf_rates p u T 0%nat 0%nat Discount ltac:(lia) C ltac:(intros _; reflexivity)) as (R1 & _). cbn in R1. split.
  - unfold ut_keys. apply zget_in_keys. rewrite R1. discriminate.
  - intro kw. unfold ut_demand_charge. rewrite R1. reflexivity.
Qed.
Print Assumptions C12_missing_rate_refuted.

Example C12_case : exists u, from_params ex_three = Ok u /\ discount_rates_given ex_three /\
  step_in_hour 14780 15 3695 /\ step_in_hour 525600 1 8760.
Proof.
  destruct ex_three_accepted as (u & H). exists u. split; [exact H|]. split; [|unfold step_in_hour; lia].
  intros _ i Hi. cbn in Hi. destruct i as [|[|i]]; [split; discriminate|split; discriminate|lia].
Qed.
