(** Proofs about UtilityCostTracker: look-ups and the CSV round trip. *)
From Verif Require Import Prelude M_Building S_Building M_Utility S_Utility.
From Verif Require Import L_Heater L_Building L_Utility.

Lemma in_range_iff hod s e : is_hour_in_range hod s e = true <-> in_window hod s e.
Proof.
  unfold is_hour_in_range, in_window. destruct s as [s|]; [|split; [discriminate|intros (x & y & H & _); discriminate]].
  destruct e as [e|]; [|split; [discriminate|intros (x & y & _ & H & _); discriminate]].
  destruct (qltb e s) eqn:B; qbool.
  - rewrite orb_true_iff, qleb_true, qltb_true. split.
    + intro H. exists s, e. repeat (split; [reflexivity|]). right. split; [lra|exact H].
    + intros (x & y & E1 & E2 & H). inversion E1; inversion E2; subst. destruct H as [(H & _)|[_ H]]; [lra|exact H].
  - rewrite andb_true_iff, qleb_true, qltb_true. split.
    + intros [H1 H2]. exists s, e. repeat (split; [reflexivity|]). left. split; [lra|split; assumption].
    + intros (x & y & E1 & E2 & H). inversion E1; inversion E2; subst. destruct H as [(_ & H)|[H _]]; [exact H|lra].
Qed.

(** Position of a window among a month's keys. *)
Definition widx (w : window) : Z := match w with OffPeak => 0 | Peak => 1 | Discount => 2 end.
(** Windows that exist in a tariff. *)
Definition wok (disc : bool) (w : window) : Prop := w = Discount -> disc = true.

Lemma widx_range disc w : wok disc w -> (0 <= widx w < npk disc)%Z.
Proof.
  unfold wok, npk. destruct w; cbn; destruct disc; try lia. intro H. specialize (H eq_refl). discriminate.
Qed.

Lemma chain_find ss : forall a m s, chain a ss -> In s ss -> (se_start s <= m < se_end s)%Z ->
  find (fun s => (se_start s <=? m) && (m <? se_end s))%Z%bool ss = Some s.
Proof.
  induction ss as [|s0 ss IH]; intros a m s C H B; [destruct H|].
  cbn [chain] in C. destruct C as (C0 & C1 & C2). cbn [find].
  assert (CS : forall ss a, chain a ss -> forall s, In s ss -> (a <= se_start s)%Z).
  { clear. induction ss as [|s1 ss IH]; intros a C s H; [destruct H|]. cbn [chain] in C. destruct C as (C0 & C1 & C2).
    destruct H as [<-|H]; [lia|]. specialize (IH _ C2 s H). lia. }
  destruct H as [->|H].
  - replace ((se_start s <=? m) && (m <? se_end s))%Z%bool with true by lia. reflexivity.
  - specialize (CS _ _ C2 s H).
    replace ((se_start s0 <=? m) && (m <? se_end s0))%Z%bool with false by lia. eapply IH; eauto.
Qed.

Lemma period_is_window p i s m h w :
  season_at p i = Ok s ->
  se_pk_start s = nth i (pr_pk_start p) None -> se_pk_end s = nth i (pr_pk_end p) None ->
  se_dc_start s = nth i (pr_dc_start p) None -> se_dc_end s = nth i (pr_dc_end p) None ->
  billed_in p i (h mod 24) w ->
  period_of_hour s (pr_include_discount p) (npk (pr_include_discount p)) m h =
    (m * npk (pr_include_discount p) + widx w)%Z.
Proof.
  intros _ E1 E2 E3 E4 B. unfold period_of_hour. cbv zeta. rewrite E1, E2, E3, E4.
  destruct (is_hour_in_range (h mod 24) (nth i (pr_pk_start p) None) (nth i (pr_pk_end p) None)) eqn:P.
  - apply in_range_iff in P. destruct w; cbn in *; [tauto|reflexivity|tauto].
  - assert (NP : ~ peak_hour p i (h mod 24)).
    { intro C. unfold peak_hour in C. apply in_range_iff in C. congruence. }
    destruct (pr_include_discount p && is_hour_in_range (h mod 24) (nth i (pr_dc_start p) None) (nth i (pr_dc_end p) None))%bool eqn:D.
    + apply andb_true_iff in D. destruct D as [D1 D2]. apply in_range_iff in D2.
      assert (DH : discount_hour p i (h mod 24)) by (split; assumption).
      destruct w; cbn in *; [tauto|tauto|reflexivity].
    + assert (ND : ~ discount_hour p i (h mod 24)).
      { intros [C1 C2]. apply in_range_iff in C2. rewrite C1, C2 in D. discriminate. }
      destruct w; cbn in *; [lia|tauto|tauto].
Qed.

(** Everything about an accepted, non-empty tariff. *)
Record tariff_facts (p : params) (u : tracker) : Prop := {
  tf_len : Z.of_nat (length (ut_chart u)) = 8760%Z;
  tf_hour : ut_by_hour u = [];
  tf_base : pr_base p = Some (ut_base u);
  tf_disc : ut_include_discount u = pr_include_discount p;
  tf_keys : ut_keys u = zrange 0 (12 * npk (pr_include_discount p));
  tf_chart : forall h m i w, hour_month h m -> covers p i m -> billed_in p i (h mod 24) w ->
     nth (Z.to_nat h) (ut_chart u) 0%Z = (Z.of_nat m * npk (pr_include_discount p) + widx w)%Z;
  tf_rates : forall m i w, (m < 12)%nat -> covers p i m -> wok (pr_include_discount p) w ->
     let k := (Z.of_nat m * npk (pr_include_discount p) + widx w)%Z in
     zget (ut_demand u) k = Some (demand_rate p i w) /\ zget (ut_energy u) k = Some (energy_rate p i w) /\
     zget (ut_peak u) k = Some (match w with Peak => true | _ => false end) /\
     zget (ut_disc u) k = Some (match w with Discount => true | _ => false end) }.

Lemma from_params_facts p u : from_params p = Ok u -> pr_pk_start p <> [] -> tariff_facts p u.
Proof.
  intros H NE. destruct (proj1 (from_params_iff p) (ex_intro _ u H)) as [V D].
  set (n := length (pr_pk_start p)).
  assert (Hn : (0 < n)%nat) by (unfold n; destruct (pr_pk_start p); [congruence|cbn; lia]).
  destruct (seasons_exist p V D n 0%nat 0%Z eq_refl eq_refl) as (ss & M & L & C & CE & _). specialize (CE Hn).
  unfold from_params in H. destruct (bind_ok _ _ _ H) as ([] & _ & H1). clear H.
  destruct (pr_base p) as [base|] eqn:EB; [|discriminate].
  fold n in H1. rewrite (fill_loop_seasons _ _ _ _ M) in H1. apply ok_inj in H1.
  set (disc := pr_include_discount p) in *. change (if disc then 3%Z else 2%Z) with (npk disc) in H1.
  set (fnd := fun m : Z => find (fun s => (se_start s <=? m) && (m <? se_end s))%Z%bool ss).
  set (Fd := fun m => match fnd m with Some s => sel3 (se_off_demand s) (se_pk_demand s) (se_dc_demand s) | None => fun _ => None end).
  set (Fe := fun m => match fnd m with Some s => sel3 (se_off_energy s) (se_pk_energy s) (se_dc_energy s) | None => fun _ => None end).
  match type of H1 with fold_left _ _ ?x = _ => set (u0 := x) in * end.
  assert (FIND : forall s m, In s ss -> (se_start s <= m < se_end s)%Z -> fnd m = Some s).
  { intros s m Hs Hm. unfold fnd. eapply chain_find; eauto. }
  assert (F : forall s m, In s ss -> (se_start s <= m < se_end s)%Z ->
     Fd m = sel3 (se_off_demand s) (se_pk_demand s) (se_dc_demand s) /\
     Fe m = sel3 (se_off_energy s) (se_pk_energy s) (se_dc_energy s)).
  { intros s m Hs Hm. unfold Fd, Fe. rewrite (FIND s m Hs Hm). auto. }
  destruct (fill_seasons_ok disc Fd Fe ss 0%Z u0) as (A1 & A2 & A3 & A4 & A5 & _ & A7).
  { lia. } { exact C. } { lia. }
  { unfold u0. cbn [ut_chart]. rewrite repeat_length. unfold year_hours. lia. }
  { unfold maps_are, u0. cbn [ut_demand ut_energy ut_peak ut_disc]. rewrite Z.mul_0_l.
    repeat split; reflexivity. }
  { exact F. }
  cbv zeta in A1, A2, A3, A4, A5, A7. rewrite H1 in A1, A2, A3, A4, A5, A7. rewrite CE in A2.
  (* seasons by index *)
  assert (IDX : forall i m, covers p i m -> exists s, season_at p i = Ok s /\ In s ss /\
            (se_start s <= Z.of_nat m < se_end s)%Z).
  { intros i m (Hi & a & b & E1 & E2 & B).
    assert (Ei : nth_error (seq 0 n) i = Some i).
    { rewrite (nth_error_nth' _ 0%nat) by (rewrite seq_length; exact Hi). rewrite seq_nth by exact Hi. reflexivity. }
    destruct (mapM_nth _ _ _ _ _ M Ei) as (s & Hs & Es).
    destruct (season_at_ok p n i Hi eq_refl V D) as (s' & Es' & S1 & S2 & _).
    assert (s' = s) by congruence. subst s'.
    exists s. split; [exact Es|]. split; [eapply nth_error_In; eauto|].
    rewrite S1 in E1. rewrite S2 in E2. inversion E1; inversion E2; subst. exact B. }
  constructor.
  - rewrite A1. unfold u0. cbn [ut_chart]. rewrite repeat_length. unfold year_hours. lia.
  - rewrite A4. reflexivity.
  - rewrite EB. rewrite A3. reflexivity.
  - rewrite A5. reflexivity.
  - destruct A2 as (AD & _). unfold ut_keys. rewrite AD. rewrite map_map. cbn [fst]. apply map_id.
  - intros h m i w Hh Hc Hw. destruct (IDX i m Hc) as (s & Es & Hs & B).
    rewrite (A7 h m s Hh Hs B).
    destruct (season_at_ok p n i (proj1 Hc) eq_refl V D) as (s' & Es' & _ & _ & _ & _ & _ & _ & _ & _ & _ & S1 & S2 & S3 & S4).
    assert (s' = s) by congruence. subst s'. eapply period_is_window; eauto.
  - intros m i w Hm Hc Hw. cbv zeta.
    destruct (IDX i m Hc) as (s & Es & Hs & B).
    destruct (season_at_ok p n i (proj1 Hc) eq_refl V D) as (s' & Es' & _ & _ & _ & R1 & R2 & R3 & R4 & R5 & R6 & _).
    assert (s' = s) by congruence. subst s'.
    destruct A2 as (AD & AE & AP & AC). destruct (F s (Z.of_nat m) Hs B) as [FD FE].
    pose proof (widx_range disc w Hw) as WR.
    change (pr_include_discount p) with disc. set (k := (Z.of_nat m * npk disc + widx w)%Z).
    assert (KR : ((0 <=? k) && (k <? 12 * npk disc))%Z%bool = true).
    { apply andb_true_iff. unfold k. assert (0 < npk disc)%Z by (unfold npk; destruct disc; lia). split; [apply Z.leb_le|apply Z.ltb_lt]; nia. }
    rewrite (dict_is_get _ _ _ k AD), (dict_is_get _ _ _ k AE), (dict_is_get _ _ _ k AP), (dict_is_get _ _ _ k AC), KR.
    unfold k. rewrite !(kval_at disc _ (Z.of_nat m) (widx w) WR), FD, FE.
    destruct w; cbn; rewrite ?R1, ?R2, ?R3, ?R4, ?R5, ?R6; auto.
Qed.

(** ** Steps *)

Lemma hour_of_step_ok t iv h : step_in_hour t iv h -> hour_of_step t iv = Ok h.
Proof.
  intros [B P]. unfold hour_of_step.
  assert (N : ~ qz iv == 0).
  { unfold qz. change 0 with (inject_Z 0). rewrite inject_Z_injective. lia. }
  rewrite qdiv_ok by exact N. cbn [bind].
  assert (N2 : ~ 60 / qz iv == 0).
  { intro C. assert (60 == 0); [|discriminate]. assert (E : 60 / qz iv * qz iv == 60) by (field; exact N).
    rewrite C in E. lra. }
  rewrite qdiv_ok by exact N2. cbn [bind]. f_equal.
  assert (E : qz t / (60 / qz iv) == (t * iv) # 60).
  { unfold Qdiv at 1. assert (X : qz t * / (60 / qz iv) == qz t * qz iv / 60) by (field; exact N).
    rewrite X. unfold qz. rewrite <- inject_Z_mult. unfold Qeq, Qdiv. cbn. lia. }
  rewrite E. cbn. symmetry. apply (Z.div_unique _ _ _ (t * iv - 60 * h)); [left; lia|lia].
Qed.

Lemma step_hour_exists t iv : (0 <= t)%Z -> (0 < iv)%Z -> exists h, (0 <= h)%Z /\ step_in_hour t iv h.
Proof.
  intros Ht Hi. exists (t * iv / 60)%Z. split; [apply Z.div_pos; nia|]. split; [|exact Hi].
  pose proof (Z.div_mod (t * iv) 60 ltac:(lia)). pose proof (Z.mod_pos_bound (t * iv) 60 ltac:(lia)). lia.
Qed.

Lemma chart_lookup (l : list Z) h : (0 <= h < Z.of_nat (length l))%Z -> py_nth l h = Ok (nth (Z.to_nat h) l 0%Z).
Proof. intro H. apply py_nth_nonneg; [lia|]. apply nth_error_nth'. lia. Qed.

Lemma covers_ne p i m : covers p i m -> pr_pk_start p <> [].
Proof. intros [H _] C. rewrite C in H. cbn in H. lia. Qed.

Lemma billed_wok p i hod w : billed_in p i hod w -> wok (pr_include_discount p) w.
Proof. intros H E. subst w. destruct H as [_ [H _]]. exact H. Qed.

Lemma c10_core p u t iv h m i w :
  from_params p = Ok u -> step_in_hour t iv h -> hour_month h m -> covers p i m ->
  billed_in p i (h mod 24) w ->
  ut_energy_at u t iv = Ok (energy_rate p i w) /\
  exists k, ut_period_at u t iv = Ok k /\
    k = (Z.of_nat m * npk (pr_include_discount p) + widx w)%Z /\
    (forall kw, ut_demand_charge u k kw = match demand_rate p i w with Some d => Ok (d * kw) | None => Err TypeError end) /\
    zget (ut_peak u) k = Some (match w with Peak => true | _ => false end) /\
    zget (ut_disc u) k = Some (match w with Discount => true | _ => false end).
Proof.
  intros H St Hm Hc Hw. pose proof (from_params_facts p u H (covers_ne _ _ _ Hc)) as T.
  pose proof (hour_month_year h m Hm) as HY.
  assert (CL : py_nth (ut_chart u) h = Ok (Z.of_nat m * npk (pr_include_discount p) + widx w)%Z).
  { rewrite chart_lookup by (rewrite (tf_len p u T); lia). f_equal. eapply tf_chart; eauto. }
  destruct (tf_rates p u T m i w (proj1 Hm) Hc (billed_wok _ _ _ _ Hw)) as (R1 & R2 & R3 & R4).
  cbv zeta in R1, R2, R3, R4. split.
  - unfold ut_energy_at. rewrite (hour_of_step_ok _ _ _ St). cbn [bind].
    rewrite (tf_hour p u T). cbn [length Z.of_nat]. unfold year_hours. cbn [Z.eqb].
    rewrite CL. cbn [bind]. rewrite R2. reflexivity.
  - eexists. split; [unfold ut_period_at; rewrite (hour_of_step_ok _ _ _ St); cbn [bind]; exact CL|].
    split; [reflexivity|]. split; [|auto]. intro kw. unfold ut_demand_charge. rewrite R1. reflexivity.
Qed.

Lemma covers_exists p m : valid_tariff p -> pr_pk_start p <> [] -> (m < 12)%nat ->
  exists i, covers p i m /\ forall j, covers p j m -> j = i.
Proof.
  intros V NE Hm. set (n := length (pr_pk_start p)).
  assert (Hn : (0 < n)%nat) by (unfold n; destruct (pr_pk_start p); [congruence|cbn; lia]).
  destruct V as (_ & _ & _ & _ & _ & _ & _ & _ & V). fold n in V.
  (* end months, as a function *)
  assert (SE : forall i, (i < n)%nat -> exists a b, nth i (pr_start_month p) None = Some a /\ nth i (pr_end_month p) None = Some b /\
     (a < b)%Z /\ (i = 0%nat -> a = 0%Z) /\ (forall j, i = S j -> nth j (pr_end_month p) None = Some a) /\ (S i = n -> b = 12%Z)).
  { intros i Hi. destruct (V i Hi) as (_ & _ & _ & _ & _ & S0). exact S0. }
  (* ends increase *)
  assert (INC : forall j i a b, (i < j)%nat -> (j < n)%nat -> nth i (pr_end_month p) None = Some b ->
              nth j (pr_start_month p) None = Some a -> (b <= a)%Z).
  { induction j as [|j IH]; intros i a b Hi Hj E1 E2; [lia|].
    destruct (SE (S j) Hj) as (a' & b' & F1 & _ & _ & _ & F2 & _). specialize (F2 j eq_refl).
    assert (a' = a) by congruence. subst a'.
    destruct (Nat.eq_dec i j) as [->|N]; [assert (b = a) by congruence; lia|].
    destruct (SE j ltac:(lia)) as (aj & bj & G1 & G2 & G3 & _).
    specialize (IH i aj b ltac:(lia) ltac:(lia) E1 G1). assert (bj = a) by congruence. lia. }
  assert (EX : forall k, (k < n)%nat -> exists e, nth k (pr_end_month p) None = Some e /\
               ((Z.of_nat m < e)%Z -> exists i, (i <= k)%nat /\ covers p i m)).
  { induction k as [|k IH]; intro Hk.
    - destruct (SE 0%nat Hk) as (a & b & E1 & E2 & E3 & E4 & _). exists b. split; [exact E2|].
      intro L. exists 0%nat. split; [lia|]. split; [fold n; lia|]. exists a, b. rewrite (E4 eq_refl) in *. split; [exact E1|]. split; [exact E2|lia].
    - destruct (SE (S k) Hk) as (a & b & E1 & E2 & E3 & _ & E5 & _). exists b. split; [exact E2|]. intro L.
      destruct (IH ltac:(lia)) as (e & Ee & K). specialize (E5 k eq_refl). assert (e = a) by congruence. subst e.
      destruct (Z_lt_le_dec (Z.of_nat m) a) as [L2|L2].
      + destruct (K L2) as (i & Hi & C). exists i. split; [lia|exact C].
      + exists (S k). split; [lia|]. split; [fold n; lia|]. exists a, b. split; [exact E1|]. split; [exact E2|lia]. }
  destruct (EX (n - 1)%nat ltac:(lia)) as (e & Ee & K).
  destruct (SE (n - 1)%nat ltac:(lia)) as (a & b & _ & E2 & _ & _ & _ & E6).
  assert (b = 12%Z) by (apply E6; lia). assert (e = 12%Z) by congruence. subst e.
  destruct (K ltac:(lia)) as (i & _ & Ci). exists i. split; [exact Ci|].
  intros j Cj. destruct Ci as (Hi & ai & bi & I1 & I2 & I3). destruct Cj as (Hj & aj & bj & J1 & J2 & J3).
  destruct (lt_eq_lt_dec i j) as [[L|L]|L]; [|auto|].
  - pose proof (INC j i aj bi L Hj I2 J1). lia.
  - pose proof (INC i j ai bj L Hi J2 I1). lia.
Qed.

Lemma billed_exists p i hod : exists w, billed_in p i hod w /\ forall w', billed_in p i hod w' -> w' = w.
Proof.
  assert (DP : peak_hour p i hod \/ ~ peak_hour p i hod).
  { unfold peak_hour. destruct (is_hour_in_range hod (nth i (pr_pk_start p) None) (nth i (pr_pk_end p) None)) eqn:E.
    - left. apply in_range_iff. exact E.
    - right. intro C. apply in_range_iff in C. congruence. }
  assert (DD : discount_hour p i hod \/ ~ discount_hour p i hod).
  { unfold discount_hour. destruct (pr_include_discount p); [|right; intros [C _]; discriminate].
    destruct (is_hour_in_range hod (nth i (pr_dc_start p) None) (nth i (pr_dc_end p) None)) eqn:E.
    - left. split; [reflexivity|]. apply in_range_iff. exact E.
    - right. intros [_ C]. apply in_range_iff in C. congruence. }
  destruct DP as [P|P].
  - exists Peak. split; [exact P|]. intros [| |] H; cbn in H; tauto.
  - destruct DD as [D|D].
    + exists Discount. split; [split; assumption|]. intros [| |] H; cbn in H; tauto.
    + exists OffPeak. split; [split; assumption|]. intros [| |] H; cbn in H; tauto.
Qed.

Lemma key_unique np m1 m2 j1 j2 : (0 <= j1 < np)%Z -> (0 <= j2 < np)%Z ->
  (m1 * np + j1 = m2 * np + j2)%Z -> m1 = m2 /\ j1 = j2.
Proof.
  intros A B E. assert (m1 = m2).
  { destruct (Z.lt_trichotomy m1 m2) as [L|[L|L]]; [nia|exact L|nia]. }
  subst m2. lia.
Qed.

(** ** Beyond the year *)
Lemma beyond_year p u t iv h : from_params p = Ok u -> step_in_hour t iv h -> (8760 <= h)%Z ->
  ut_energy_at u t iv = Err IndexError /\ ut_period_at u t iv = Err IndexError.
Proof.
  intros H St Hh.
  assert (L : Z.of_nat (length (ut_chart u)) = 8760%Z /\ ut_by_hour u = []).
  { destruct (pr_pk_start p) as [|x l] eqn:E.
    - unfold from_params in H. rewrite E in H. destruct (bind_ok _ _ _ H) as (v & _ & H1).
      destruct (pr_base p); [|discriminate]. cbn [length seq fill_loop] in H1. apply ok_inj in H1. subst u.
      cbn [ut_chart ut_by_hour]. rewrite repeat_length. unfold year_hours. split; [lia|reflexivity].
    - assert (T : tariff_facts p u) by (apply from_params_facts; [exact H|rewrite E; discriminate]).
      split; [exact (tf_len p u T)|exact (tf_hour p u T)]. }
  destruct L as [L1 L2].
  assert (PN : py_nth (ut_chart u) h = Err IndexError).
  { unfold py_nth. rewrite L1. cbv zeta. destruct (h <? 0)%Z eqn:E; [apply Z.ltb_lt in E; lia|].
    replace ((h <? 0) || (8760 <=? h))%Z%bool with true by lia. reflexivity. }
  unfold ut_energy_at, ut_period_at. rewrite (hour_of_step_ok _ _ _ St). cbn [bind].
  rewrite L2. cbn [length Z.of_nat]. unfold year_hours. cbn [Z.eqb]. rewrite PN. auto.
Qed.

(** ** CSV round trip *)

(** The state of from_csv agrees with the tracker [u] on the periods [seen]. *)
Definition csv_inv (u v : tracker) (seen : list Z) : Prop :=
  forall k, (In k seen ->
      zget (ut_demand v) k = zget (ut_demand u) k /\ zget (ut_energy v) k = zget (ut_energy u) k /\
      zget (ut_peak v) k = Some (k mod 2 =? 1)%Z /\ zget (ut_disc v) k = Some false) /\
    (~ In k seen -> zget (ut_demand v) k = None /\ zget (ut_energy v) k = None).

(** Both rates of period [k] are numbers. *)
Definition rated (u : tracker) (k : Z) : Prop :=
  exists d e, zget (ut_demand u) k = Some (Some d) /\ zget (ut_energy u) k = Some (Some e).

Definition energy_num (u : tracker) (k : Z) : Q :=
  match zget (ut_energy u) k with Some (Some e) => e | _ => 0 end.

Lemma csv_row_step u v k seen date bc :
  csv_inv u v seen -> (forall k', In k' seen -> rated u k') ->
  let first := negb (existsb (Z.eqb k) seen) in
  let row := [date; CInt k; if first then cell_of (zget (ut_energy u) k) else CBlank;
              if first then cell_of (zget (ut_demand u) k) else CBlank; bc] in
  (rated u k -> exists v', csv_row 2 3 1 v row = Ok v' /\
     csv_inv u v' (if first then k :: seen else seen) /\
     ut_chart v' = ut_chart v ++ [k] /\ ut_by_hour v' = ut_by_hour v ++ [energy_num u k] /\ ut_base v' = ut_base v) /\
  (~ rated u k -> csv_row 2 3 1 v row = Err ValueError).
Proof.
  intros I R first row.
  assert (FS : first = false <-> In k seen).
  { unfold first. rewrite negb_false_iff, existsb_exists. split.
    - intros (x & Hx & E). apply Z.eqb_eq in E. subst. exact Hx.
    - intro H. exists k. split; [exact H|apply Z.eqb_refl]. }
  unfold csv_row. cbn [nth_error row cell_int nth].
  destruct first eqn:EF.
  - assert (NI : ~ In k seen) by (intro C; apply FS in C; discriminate).
    destruct (I k) as [_ I2]. destruct (I2 NI) as [ND NE].
    split.
    + intros (d & e & Ed & Ee). rewrite Ed, Ee. cbn [cell_of cell_float bind].
      unfold zhas. rewrite ND. eexists. split; [reflexivity|]. cbn [ut_chart ut_by_hour ut_base].
      split; [|unfold energy_num; rewrite Ee; auto].
      intro k'. cbn [ut_demand ut_energy ut_peak ut_disc]. rewrite !zget_zset.
      destruct (k =? k')%Z eqn:E.
      * apply Z.eqb_eq in E. subst k'. split; [intros _; rewrite Ed, Ee; auto|].
        intro C. exfalso. apply C. left. reflexivity.
      * apply Z.eqb_neq in E. destruct (I k') as [J1 J2]. split.
        -- intros [C|C]; [congruence|]. auto.
        -- intro C. apply J2. intro C'. apply C. right; exact C'.
    + intro NR. unfold rated in NR. unfold zhas.
      destruct (zget (ut_energy u) k) as [[e|]|] eqn:Ee; cbn [cell_of].
      * cbn [cell_float bind]. rewrite ND.
        destruct (zget (ut_demand u) k) as [[d|]|] eqn:Ed; cbn [cell_of cell_float]; [|reflexivity|reflexivity].
        exfalso. apply NR. eauto.
      * rewrite NE. reflexivity.
      * rewrite NE. reflexivity.
  - assert (IN : In k seen) by (apply FS; reflexivity).
    destruct (I k) as [I1 _]. destruct (I1 IN) as (D1 & D2 & D3 & D4).
    destruct (R k IN) as (d & e & Ed & Ee). split.
    + intros _. rewrite D2, Ee. cbn [bind]. unfold zhas. rewrite D1, Ed.
      eexists. split; [reflexivity|]. cbn [ut_chart ut_by_hour ut_base]. split; [|unfold energy_num; rewrite Ee; auto].
      intro k'. exact (I k').
    + intro N. exfalso. apply N. exists d, e. auto.
Qed.

Lemma csv_loop_ok u : forall chart h month day seen v,
  csv_inv u v seen -> (forall k, In k seen -> rated u k) ->
  ((forall k, In k chart -> rated u k) ->
    exists v' seen', csv_loop 2 3 1 v (csv_rows_from u chart h month day seen) = Ok v' /\
      csv_inv u v' seen' /\ (forall k, In k seen' <-> In k seen \/ In k chart) /\
      ut_chart v' = ut_chart v ++ chart /\ ut_by_hour v' = ut_by_hour v ++ map (energy_num u) chart /\
      ut_base v' = ut_base v) /\
  ((exists k, In k chart /\ ~ rated u k) ->
    csv_loop 2 3 1 v (csv_rows_from u chart h month day seen) = Err ValueError).
Proof.
  induction chart as [|k chart IH]; intros h month day seen v I R.
  - split.
    + intros _. exists v, seen. cbn [csv_rows_from csv_loop map]. rewrite !app_nil_r.
      split; [reflexivity|]. split; [exact I|]. split; [cbn; tauto|auto].
    + intros (k & [] & _).
  - cbn [csv_rows_from csv_loop].
    match goal with |- context [CDate ?a ?b ?c] => set (date := CDate a b c) end.
    match goal with |- context [if (h =? 0)%Z then ?x else ?y] => set (bc := if (h =? 0)%Z then x else y) end.
    destruct (csv_row_step u v k seen date bc I R) as [ST1 ST2]. cbv zeta in ST1, ST2.
    assert (DEC : rated u k \/ ~ rated u k).
    { unfold rated. destruct (zget (ut_demand u) k) as [[d|]|]; [|right; intros (? & ? & C & _); discriminate|right; intros (? & ? & C & _); discriminate].
      destruct (zget (ut_energy u) k) as [[e|]|]; [left; eauto|right; intros (? & ? & _ & C); discriminate|right; intros (? & ? & _ & C); discriminate]. }
    destruct DEC as [RK|RK].
    + destruct (ST1 RK) as (v1 & E1 & I1 & C1 & B1 & Ba1). rewrite E1. cbn [bind].
      set (seen1 := if negb (existsb (Z.eqb k) seen) then k :: seen else seen) in *.
      assert (S1 : forall x, In x seen1 <-> In x seen \/ x = k).
      { intro x. unfold seen1. destruct (existsb (Z.eqb k) seen) eqn:X; cbn [negb].
        - split; [auto|]. intros [H| ->]; [exact H|]. apply existsb_exists in X. destruct X as (y & Hy & E). apply Z.eqb_eq in E. subst. exact Hy.
        - cbn [In]. split; intros [H|H]; auto. }
      assert (R1 : forall x, In x seen1 -> rated u x).
      { intros x Hx. apply S1 in Hx. destruct Hx as [Hx| ->]; auto. }
      match goal with |- context [csv_rows_from u chart ?a ?b ?c seen1] => destruct (IH a b c seen1 v1 I1 R1) as [K1 K2] end.
      split.
      * intro A. destruct K1 as (v' & seen' & L1 & L2 & L3 & L4 & L5 & L6); [intros x Hx; apply A; right; exact Hx|].
        exists v', seen'. split; [exact L1|]. split; [exact L2|]. split.
        { intro x. rewrite L3, S1. cbn [In]. split; [intros [[?| ->]|?]|intros [?|[<-|?]]]; auto. }
        rewrite L4, L5, L6, C1, B1, Ba1. cbn [map]. rewrite <- !app_assoc. auto.
      * intros (x & [<-|Hx] & NR); [tauto|]. apply K2. eauto.
    + rewrite (ST2 RK). cbn [bind]. split; [|auto]. intro A. exfalso. apply RK, A. left. reflexivity.
Qed.

Lemma csv_rows_length u chart h month day seen : length (csv_rows_from u chart h month day seen) = length chart.
Proof. revert h month day seen. induction chart as [|k c IH]; intros; cbn [csv_rows_from length]; [reflexivity|]. f_equal. apply IH. Qed.

Lemma csv_header_cols :
  col_index csv_header "Energy Rate ($/kWh)" = Some 2%nat /\ col_index csv_header "Demand Rate ($/kW)" = Some 3%nat /\
  col_index csv_header "Demand Period" = Some 1%nat /\ col_index csv_header "Monthly Base Charge" = Some 4%nat.
Proof. repeat split; reflexivity. Qed.

Lemma firstn_all' {A} (l : list A) n : length l = n -> firstn n l = l.
Proof. intros <-. apply firstn_all. Qed.

Lemma round_trip_gen u : Z.of_nat (length (ut_chart u)) = 8760%Z ->
  ((forall k, In k (ut_chart u) -> rated u k) ->
   exists v, from_csv (to_csv u) = Ok v /\ ut_chart v = ut_chart u /\ ut_base v = ut_base u /\
     ut_by_hour v = map (energy_num u) (ut_chart u) /\
     (forall k, In k (ut_chart u) ->
        zget (ut_demand v) k = zget (ut_demand u) k /\ zget (ut_energy v) k = zget (ut_energy u) k /\
        zget (ut_peak v) k = Some (k mod 2 =? 1)%Z /\ zget (ut_disc v) k = Some false) /\
     (forall k, ~ In k (ut_chart u) -> zget (ut_demand v) k = None)) /\
  ((exists k, In k (ut_chart u) /\ ~ rated u k) -> from_csv (to_csv u) = Err ValueError).
Proof.
  intro L. unfold to_csv, from_csv.
  rewrite firstn_all' by (unfold year_hours; lia). rewrite csv_rows_length.
  replace (Z.of_nat (length (ut_chart u)) =? year_hours)%Z with true by (unfold year_hours; lia). cbn [negb].
  destruct csv_header_cols as (-> & -> & -> & ->).
  destruct (ut_chart u) as [|k0 rest] eqn:EC; [cbn in L; lia|].
  assert (BASE : nth_error (nth 0 (csv_rows_from u (k0 :: rest) 0 0 1 []) []) 4 = Some (CNum (ut_base u))) by reflexivity.
  rewrite BASE. cbn [cell_float].
  set (v0 := mkTracker [] [] [] [] [] (ut_base u) [] false).
  destruct (csv_loop_ok u (k0 :: rest) 0 0 1 [] v0) as [A B].
  { intro k. split; [intros []|auto]. } { intros k []. }
  split; [|exact B].
  intro R. destruct (A R) as (v & seen & E1 & E2 & E3 & E4 & E5 & E6). exists v.
  split; [exact E1|]. split; [exact E4|]. split; [exact E6|]. split; [exact E5|]. split.
  - intros k Hk. apply (E2 k). apply E3. right. exact Hk.
  - intros k Hk. apply (E2 k). intro C. apply E3 in C. destruct C as [[]|C]. exact (Hk C).
Qed.

(** Rates and periods at every step agree after the round trip. *)
Lemma round_trip_steps u v t iv h :
  Z.of_nat (length (ut_chart u)) = 8760%Z -> ut_by_hour u = [] ->
  (forall k, In k (ut_chart u) -> rated u k) ->
  from_csv (to_csv u) = Ok v -> step_in_hour t iv h -> (0 <= h < 8760)%Z ->
  ut_period_at v t iv = ut_period_at u t iv /\ ut_energy_at v t iv = ut_energy_at u t iv.
Proof.
  intros L BH R E St Hh. destruct (round_trip_gen u L) as [RT _]. destruct (RT R) as (v' & E' & C & _ & BY & _).
  assert (v' = v) by congruence. subst v'.
  unfold ut_period_at, ut_energy_at. rewrite (hour_of_step_ok _ _ _ St). cbn [bind]. rewrite C. split; [reflexivity|].
  rewrite BY, BH, map_length, L. unfold year_hours. cbn [length Z.of_nat Z.eqb].
  change (8760 =? 8760)%Z with true. cbv iota.
  rewrite chart_lookup by lia. cbn [bind].
  assert (IN : In (nth (Z.to_nat h) (ut_chart u) 0%Z) (ut_chart u)) by (apply nth_In; lia).
  destruct (R _ IN) as (d & e & _ & Ee). rewrite Ee.
  rewrite (py_nth_nonneg _ h e); [reflexivity|lia|].
  rewrite nth_error_map, (nth_error_nth' _ 0%Z) by lia. cbn [option_map]. f_equal. unfold energy_num. rewrite Ee. reflexivity.
Qed.

(** Periods of an accepted tariff are rated, provided the discount rates are given. *)
Lemma params_rated p u : from_params p = Ok u -> pr_pk_start p <> [] ->
  (pr_include_discount p = true -> forall i, (i < length (pr_pk_start p))%nat ->
     nth i (pr_dc_demand p) None <> None /\ nth i (pr_dc_energy p) None <> None) ->
  forall k, In k (ut_chart u) -> rated u k /\ exists m w, (m < 12)%nat /\ wok (pr_include_discount p) w /\
     k = (Z.of_nat m * npk (pr_include_discount p) + widx w)%Z.
Proof.
  intros H NE DC k Hk. pose proof (from_params_facts p u H NE) as T.
  destruct (proj1 (from_params_iff p) (ex_intro _ u H)) as [V D].
  destruct (In_nth _ _ 0%Z Hk) as (j & Hj & Ej).
  pose proof (tf_len p u T) as L.
  destruct (hour_month_ex (Z.of_nat j) ltac:(lia)) as (m & Hm).
  destruct (covers_exists p m V NE (proj1 Hm)) as (i & Ci & _).
  destruct (billed_exists p i (Z.of_nat j mod 24)) as (w & Hw & _).
  pose proof (tf_chart p u T _ m i w Hm Ci Hw) as CH. rewrite Nat2Z.id in CH. rewrite Ej in CH.
  pose proof (billed_wok _ _ _ _ Hw) as WO.
  destruct (tf_rates p u T m i w (proj1 Hm) Ci WO) as (R1 & R2 & _). cbv zeta in R1, R2. rewrite <- CH in R1, R2.
  split; [|exists m, w; split; [exact (proj1 Hm)|auto]].
  destruct V as (_ & _ & _ & _ & _ & _ & _ & _ & V). destruct (V i (proj1 Ci)) as (_ & N1 & N2 & N3 & N4 & _).
  assert (ND : demand_rate p i w <> None /\ energy_rate p i w <> None).
  { destruct w; cbn; [auto|auto|]. apply DC; [apply WO; reflexivity|exact (proj1 Ci)]. }
  destruct ND as [ND1 ND2].
  destruct (demand_rate p i w) as [d|]; [|congruence]. destruct (energy_rate p i w) as [e|]; [|congruence].
  exists d, e. auto.
Qed.

(** ** Dates in the CSV *)

Definition date_ok (h : Z) (row : list cell) : Prop :=
  exists m d, nth_error row 0 = Some (CDate (Z.of_nat m) d (h mod 24)) /\ hour_month h m /\
    (1 <= d)%Z /\ (h / 24 = nth m month_start_day 0 + (d - 1))%Z.

Lemma month_step m : (m < 12)%nat -> (nth m month_hour_start 0 = 24 * nth m month_start_day 0)%Z.
Proof. intro H. do 12 (destruct m as [|m]; [reflexivity|]). lia. Qed.

Lemma hour_month_intro h m : (m < 12)%nat -> (nth m month_hour_start 0 <= h < nth (m + 1) month_hour_start 0)%Z -> hour_month h m.
Proof.
  intros Hm B. assert (HY : (0 <= h < 8760)%Z).
  { do 12 (destruct m as [|m]; [cbn in B; lia|]). lia. }
  destruct (hour_month_ex h HY) as (m' & H'). destruct (Nat.eq_dec m m') as [->|N]; [exact H'|].
  exfalso. exact (hour_month_other h m' m H' Hm N B).
Qed.

Lemma csv_dates u : forall chart h m d seen i row,
  (0 <= h)%Z -> (h + Z.of_nat (length chart) <= 8760)%Z ->
  (h = 0%Z /\ m = 0%nat /\ d = 1%Z \/
   (0 < h)%Z /\ hour_month (h - 1) m /\ (1 <= d)%Z /\ ((h - 1) / 24 = nth m month_start_day 0 + (d - 1))%Z) ->
  nth_error (csv_rows_from u chart h (Z.of_nat m) d seen) i = Some row ->
  date_ok (h + Z.of_nat i) row.
Proof.
  induction chart as [|k chart IH]; intros h m d seen i row H0 HL ST E; [destruct i; discriminate|].
  cbn [csv_rows_from] in E.
  cbn [length] in HL.
  set (nm := ((0 <? h) && (h =? nth (Z.to_nat (Z.of_nat m + 1)) month_hour_start 0))%Z%bool) in E.
  assert (ADV : exists m' d', (if nm then (Z.of_nat m + 1)%Z else Z.of_nat m) = Z.of_nat m' /\
            (if nm then 1%Z else if (negb (h =? 0) && (h mod 24 =? 0))%Z%bool then (d + 1)%Z else d) = d' /\
            hour_month h m' /\ (1 <= d')%Z /\ (h / 24 = nth m' month_start_day 0 + (d' - 1))%Z).
  { assert (EN : Z.to_nat (Z.of_nat m + 1) = (m + 1)%nat) by lia.
    destruct ST as [(-> & -> & ->)|(Hp & HM & D1 & D2)].
    - exists 0%nat, 1%Z. subst nm. cbn. split; [reflexivity|]. split; [reflexivity|]. split; [|split; [lia|reflexivity]].
      apply hour_month_intro; [lia|cbn; lia].
    - pose proof (hour_month_bounds _ _ HM) as [Hm HB].
      assert (DM := Z.div_mod (h - 1) 24 ltac:(lia)). assert (MB := Z.mod_pos_bound (h - 1) 24 ltac:(lia)).
      assert (DM' := Z.div_mod h 24 ltac:(lia)). assert (MB' := Z.mod_pos_bound h 24 ltac:(lia)).
      destruct nm eqn:NM.
      + unfold nm in NM. rewrite EN in NM. apply andb_true_iff in NM. destruct NM as [_ NM]. apply Z.eqb_eq in NM.
        assert (m < 11)%nat.
        { destruct (Nat.eq_dec m 11) as [->|]; [|lia]. cbn in NM. lia. }
        exists (S m), 1%Z. split; [lia|]. split; [reflexivity|].
        assert (HMS : hour_month h (S m)).
        { apply hour_month_intro; [lia|]. replace (S m) with (m + 1)%nat by lia. rewrite <- NM.
          split; [lia|]. rewrite NM. do 11 (destruct m as [|m]; [cbn; lia|]). lia. }
        split; [exact HMS|]. split; [lia|].
        pose proof (month_step (S m) ltac:(lia)) as MS. replace (m + 1)%nat with (S m) in NM by lia. rewrite NM, MS.
        rewrite Z.mul_comm, Z.div_mul by lia. lia.
      + assert (NE : h <> nth (m + 1) month_hour_start 0%Z).
        { intro C. unfold nm in NM. rewrite EN, <- C, Z.eqb_refl in NM. replace (0 <? h)%Z with true in NM by lia. discriminate. }
        assert (HMS : hour_month h m) by (apply hour_month_intro; [exact Hm|lia]).
        exists m. eexists. split; [reflexivity|]. split; [reflexivity|]. split; [exact HMS|].
        destruct (negb (h =? 0) && (h mod 24 =? 0))%Z%bool eqn:B.
        * apply andb_true_iff in B. destruct B as [_ B]. apply Z.eqb_eq in B. split; [lia|].
          assert (h / 24 = (h - 1) / 24 + 1)%Z by lia. lia.
        * replace (negb (h =? 0))%Z with true in B by lia. cbn [andb] in B. apply Z.eqb_neq in B.
          split; [lia|]. assert (h / 24 = (h - 1) / 24)%Z by lia. lia. }
  destruct ADV as (m' & d' & EM & ED & HM' & D1' & D2').
  rewrite EM, ED in E.
  destruct i as [|i]; cbn [nth_error] in E.
  - injection E as <-. exists m', d'. cbn [nth_error]. rewrite Z.add_0_r. auto.
  - replace (h + Z.of_nat (S i))%Z with (h + 1 + Z.of_nat i)%Z by lia.
    eapply (IH (h + 1)%Z m' d'); [lia|lia| |exact E].
    right. replace (h + 1 - 1)%Z with h by lia. split; [lia|auto].
Qed.
