(** Proofs about energy totals, alignment, messages and the CSV export of a run. *)
From Verif Require Import Prelude M_Building S_Building M_Utility S_Utility M_Heater M_SimRun S_SimRun.
From Verif Require Import L_Heater L_Building L_Utility L_Utility2 L_SimRun L_SimCost L_SimCost2.

Lemma somes_le {A} (l : list (option A)) : (length (somes l) <= length l)%nat.
Proof. induction l as [|[x|] l IH]; cbn; lia. Qed.

(** ** Energy *)

Lemma qsum_seq_nth {A} (f : A -> Q) d : forall l, qsum (map f l) == qsum (map (fun i => f (nth i l d)) (seq 0 (length l))).
Proof.
  induction l as [|a l IH]; [reflexivity|]. cbn [length seq map qsum nth]. rewrite <- seq_shift, map_map. cbn [nth]. rewrite IH. reflexivity.
Qed.

Lemma qsum_pad (f : Q -> Q) : f 0 == 0 -> forall l n, (length l <= n)%nat -> qsum (map f l) == qsum (map (fun i => f (nth i l 0)) (seq 0 n)).
Proof.
  intros F0. induction l as [|a l IH]; intros n Hn.
  - cbn [map qsum]. rewrite (qsum_map_ext _ (fun _ => 0)).
    + symmetry. induction (seq 0 n) as [|x r IHr]; cbn; [reflexivity|rewrite IHr; lra].
    + intros i _. destruct i; exact F0.
  - destruct n as [|n]; [cbn in Hn; lia|]. cbn [length seq map qsum nth]. rewrite <- seq_shift, map_map. cbn [nth].
    rewrite (IH n) by (cbn in Hn; lia). reflexivity.
Qed.

Lemma total_energy_billed r : (length (sr_tm_kw r) <= length (sr_power r))%nat ->
  total_energy r == qsum (map (fun i => billed_kw r i * step_hours r) (seq 0 (length (sr_power r)))).
Proof.
  intro L. unfold total_energy. cbv zeta.
  rewrite (qsum_seq_nth (fun p => or0 p * (qz (sr_iv r) / 60)) None).
  rewrite (qsum_pad (fun p => p * (qz (sr_iv r) / 60)) (Qmult_0_l _) (sr_tm_kw r) (length (sr_power r)) L).
  rewrite <- qsum_map_add. apply qsum_map_ext. intros i _. unfold billed_kw, step_hours. ring.
Qed.

Lemma hours_nonneg iv : (0 < iv)%Z -> 0 <= qz iv / 60.
Proof. intro H. unfold Qdiv. apply Qmult_le_0_compat; [unfold qz; change 0 with (inject_Z 0); rewrite <- Zle_Qle; lia|discriminate]. Qed.

Lemma qsum_nonneg l : (forall x, In x l -> 0 <= x) -> 0 <= qsum l.
Proof.
  induction l as [|a l IH]; intro H; cbn; [lra|]. assert (0 <= a) by (apply H; left; reflexivity).
  assert (0 <= qsum l) by (apply IH; intros x Hx; apply H; right; exact Hx). lra.
Qed.

(** ** Months of steps *)

Lemma month_start_days m : (m < 13)%nat -> (fold_right Z.add 0 (firstn m days_per_month) * 24 = nth m month_hour_start 0)%Z.
Proof. do 13 (destruct m as [|m]; [reflexivity|]). lia. Qed.

Lemma firstn_S_sum l : forall m, (m < length l)%nat ->
  (fold_right Z.add 0 (firstn (m + 1) l) = fold_right Z.add 0 (firstn m l) + nth m l 0)%Z.
Proof. induction l as [|a l IH]; intros m H; [cbn in H; lia|]. destruct m as [|m]; cbn [firstn Nat.add fold_right nth]; [lia|]. rewrite IH by (cbn in H; lia). lia. Qed.

(** [k * iv = 1440]: step [i] is in month [m] exactly if its index is in the month's block. *)
Lemma step_block iv k i m mon : (0 < iv)%Z -> (k * iv = 1440)%Z -> (m < 12)%nat ->
  hour_month (Z.of_nat i * iv / 60) mon ->
  let lo := Z.to_nat (fold_right Z.add 0%Z (firstn m days_per_month) * k) in
  let n := Z.to_nat (nth m days_per_month 0%Z * k) in
  (Nat.leb lo i && Nat.ltb i (lo + n))%bool = Nat.eqb mon m.
Proof.
  intros Hiv Hk Hm HM lo n.
  assert (Hk0 : (0 < k)%Z) by nia.
  set (a := fold_right Z.add 0%Z (firstn m days_per_month)) in *. set (b := (a + nth m days_per_month 0)%Z).
  assert (Eb : b = fold_right Z.add 0%Z (firstn (m + 1) days_per_month)).
  { unfold b, a. rewrite firstn_S_sum by (cbn; lia). reflexivity. }
  assert (A : (a * 24 = nth m month_hour_start 0)%Z) by (apply month_start_days; lia).
  assert (B : (b * 24 = nth (m + 1) month_hour_start 0)%Z) by (rewrite Eb; apply month_start_days; lia).
  assert (a0 : (0 <= a)%Z) by (unfold a; clear - Hm; do 12 (destruct m as [|m]; [cbn; lia|]); lia).
  assert (b0 : (0 <= nth m days_per_month 0)%Z) by (clear - Hm; do 12 (destruct m as [|m]; [cbn; lia|]); lia).
  assert (LO : Z.of_nat lo = (a * k)%Z) by (unfold lo; lia).
  assert (NN : Z.of_nat (lo + n) = (b * k)%Z) by (unfold n, b; nia).
  set (h := (Z.of_nat i * iv / 60)%Z) in *.
  assert (HH : (60 * h <= Z.of_nat i * iv < 60 * (h + 1))%Z) by (destruct (step_hour_div i iv Hiv); assumption).
  assert (P : (a * k <= Z.of_nat i < b * k)%Z <-> (a * 24 <= h < b * 24)%Z) by nia.
  destruct (Nat.eq_dec mon m) as [->|N].
  - rewrite Nat.eqb_refl. apply hour_month_bounds in HM. rewrite <- A, <- B in HM. destruct HM as [_ HM]. apply P in HM.
    apply andb_true_iff. split; [apply Nat.leb_le; lia|apply Nat.ltb_lt; lia].
  - rewrite (proj2 (Nat.eqb_neq mon m) N). pose proof (hour_month_other h mon m HM Hm (not_eq_sym N)) as O. rewrite <- A, <- B in O.
    apply andb_false_iff. destruct (Nat.leb lo i) eqn:E1; [|left; reflexivity]. right. apply Nat.ltb_ge. apply Nat.leb_le in E1.
    destruct (Nat.le_gt_cases (lo + n) i) as [L|L]; [exact L|]. exfalso. apply O. apply P. lia.
Qed.

Lemma monthly_energy_month r k m mon : sr_duration r = 525600%Z -> (0 < sr_iv r)%Z -> (k * sr_iv r = 1440)%Z -> (m < 12)%nat ->
  step_months (length (sr_power r)) (sr_iv r) mon ->
  exists en, monthly_energy r = Ok en /\ length en = 12%nat /\
    nth m en 0 == sum_if (length (sr_power r)) (fun i => Nat.eqb (mon i) m) (fun i => or0 (nth i (sr_power r) None) * step_hours r).
Proof.
  intros D Hiv Hk Hm SM. unfold monthly_energy. rewrite D, Z.eqb_refl. cbn [negb].
  replace (sr_iv r =? 0)%Z with false by lia.
  assert (EK : (24 * 60 / sr_iv r = k)%Z) by (change (24 * 60)%Z with 1440%Z; rewrite <- Hk; apply Z.div_mul; lia).
  rewrite EK. eexists. split; [reflexivity|]. split; [reflexivity|].
  rewrite monthly_loop_nth; [|cbn; lia|nia|].
  2:{ intros d Hd. cbn in Hd. repeat (destruct Hd as [<-|Hd]; [lia|]). destruct Hd. }
  rewrite (block_sum (fun p => or0 p * (qz (sr_iv r) / 60)) None). unfold sum_if. apply qsum_map_ext.
  intros i Hi. apply in_seq in Hi.
  rewrite (step_block (sr_iv r) k i m (mon i) Hiv Hk Hm (SM i ltac:(lia) _ (step_hour_div i (sr_iv r) Hiv))).
  reflexivity.
Qed.

Lemma monthly_energy_total r k : sr_duration r = 525600%Z -> (0 < sr_iv r)%Z -> (k * sr_iv r = 1440)%Z ->
  (Z.of_nat (length (sr_power r)) * sr_iv r <= 525600)%Z ->
  exists en, monthly_energy r = Ok en /\ qsum en == total_energy (without_tm r).
Proof.
  intros D Hiv Hk L. unfold monthly_energy. rewrite D, Z.eqb_refl. cbn [negb].
  replace (sr_iv r =? 0)%Z with false by lia.
  assert (EK : (24 * 60 / sr_iv r = k)%Z) by (change (24 * 60)%Z with 1440%Z; rewrite <- Hk; apply Z.div_mul; lia).
  rewrite EK. eexists. split; [reflexivity|].
  rewrite monthly_energy_sum.
  - unfold total_energy, without_tm. cbn [sr_iv sr_power sr_tm_kw map qsum]. cbv zeta. cbn [map qsum fold_right]. lra.
  - change (fold_right Z.add 0%Z days_per_month) with 365%Z. nia.
  - nia.
  - intros d Hd. cbn in Hd. repeat (destruct Hd as [<-|Hd]; [lia|]). destruct Hd.
Qed.

(** ** Alignment of the series that skip missing values *)

Lemma somes_aligned {A} : forall l : list (option A),
  (forall i j, (i < j)%nat -> nth i l None = None -> nth j l None = None) ->
  forall i, nth_error (somes l) i = nth i l None.
Proof.
  induction l as [|[x|] l IH]; intros P i.
  - destruct i; reflexivity.
  - destruct i as [|i]; [reflexivity|]. cbn [somes nth_error nth]. apply IH. intros a b Hab. apply (P (S a) (S b)). lia.
  - cbn [somes]. assert (N : forall j, nth j l None = None) by (intro j; apply (P 0%nat (S j)); [lia|reflexivity]).
    assert (E : somes l = []).
    { clear - N. induction l as [|[y|] l IH]; [reflexivity|specialize (N 0%nat); discriminate|]. cbn. apply IH. intro j. apply (N (S j)). }
    rewrite E. destruct i; cbn [nth_error nth]; [reflexivity|]. rewrite N. reflexivity.
Qed.

Lemma aligned_prefix {A} (l : list (option A)) : (forall i, nth_error (somes l) i = nth i l None) ->
  forall i j, (i < j)%nat -> nth i l None = None -> nth j l None = None.
Proof.
  intros H i j Hij E. rewrite <- H in E |- *. apply nth_error_None in E. apply nth_error_None. lia.
Qed.

(** ** CSV *)

Lemma mapM_ok_map {A B} (f : A -> res B) (g : A -> B) : forall l, (forall x, In x l -> f x = Ok (g x)) -> mapM f l = Ok (map g l).
Proof.
  induction l as [|a l IH]; intro H; [reflexivity|]. cbn [mapM map]. rewrite H by (left; reflexivity). cbn [bind].
  rewrite IH by (intros x Hx; apply H; right; exact Hx). reflexivity.
Qed.

Lemma py_nth_map {A B} (f : A -> B) l i x : nth_error l i = Some x -> py_nth (map f l) (Z.of_nat i) = Ok (f x).
Proof. intro E. apply py_nth_nonneg; [lia|]. rewrite Nat2Z.id. apply map_nth_error. exact E. Qed.

Lemma somes_map_Some {A B} (f : A -> option B) (g : A -> B) l : (forall x, In x l -> f x = Some (g x)) -> somes (map f l) = map g l.
Proof.
  induction l as [|a l IH]; intro H; [reflexivity|]. cbn [map somes]. rewrite H by (left; reflexivity).
  rewrite IH by (intros x Hx; apply H; right; exact Hx). reflexivity.
Qed.

Lemma node_col outs r k : recorded outs r -> (forall o, In o outs -> length (so_temps o) = 6%nat) -> (k < 6)%nat ->
  py_nth (sr_temps r) (Z.of_nat k) = Ok (map (fun o => nth k (so_temps o) 0) outs).
Proof.
  intros R L Hk. apply py_nth_nonneg; [lia|]. rewrite Nat2Z.id, (rc_temps _ _ R k Hk). f_equal.
  apply somes_map_Some. intros o Ho. rewrite (nth_error_nth' _ 0) by (rewrite L; assumption). reflexivity.
Qed.

Lemma list6 (l : list Q) : length l = 6%nat -> l = [nth 0 l 0; nth 1 l 0; nth 2 l 0; nth 3 l 0; nth 4 l 0; nth 5 l 0].
Proof. do 6 (destruct l as [|? l]; [discriminate|]). destruct l; [reflexivity|discriminate]. Qed.

Lemma csv_line_ok outs r i o : recorded outs r -> (forall o, In o outs -> length (so_temps o) = 6%nat) ->
  nth_error outs i = Some o -> csv_line r i = Ok (sim_csv_row (sr_iv r) i o).
Proof.
  intros R L E. unfold csv_line.
  rewrite (rc_demand _ _ R), (rc_usable _ _ R), (rc_output _ _ R), (rc_power _ _ R), (rc_oat _ _ R), (rc_inlet _ _ R).
  rewrite !(py_nth_map _ outs i o E). cbn [bind].
  rewrite (mapM_ok_map _ (fun node => nth (Z.to_nat node) (so_temps o) 0)).
  - cbn [bind map]. unfold sim_csv_row. rewrite (list6 (so_temps o)) at 7 by (apply L; eapply nth_error_In; eauto). reflexivity.
  - intros node Hn. assert (HN : exists k, node = Z.of_nat k /\ (k < 6)%nat).
    { exists (Z.to_nat node). cbn in Hn. lia. }
    destruct HN as (k & -> & Hk). rewrite (node_col outs r k R L Hk). cbn [bind].
    rewrite (py_nth_map _ outs i o E), Nat2Z.id. reflexivity.
Qed.

(** ** Failure message *)

Lemma outage_steps_spec : forall outs i,
  outage_steps i (map so_usable outs) = map (fun k => (i + Z.of_nat k)%Z) (filter (fun k => match nth_error outs k with Some o => Qle_bool (so_usable o) 0 | None => false end) (seq 0 (length outs))).
Proof.
  induction outs as [|o outs IH]; intro i; [reflexivity|]. cbn [map outage_steps length seq filter nth_error].
  rewrite <- seq_shift.
  assert (F : forall l, filter (fun k => match nth_error (o :: outs) k with Some o0 => Qle_bool (so_usable o0) 0 | None => false end) (map S l) =
              map S (filter (fun k => match nth_error outs k with Some o0 => Qle_bool (so_usable o0) 0 | None => false end) l)).
  { induction l as [|a l IHl]; [reflexivity|]. cbn [map filter nth_error].
    destruct (match nth_error outs a with Some o0 => Qle_bool (so_usable o0) 0 | None => false end); cbn [map]; rewrite IHl; reflexivity. }
  rewrite F, IH. destruct (Qle_bool (so_usable o) 0); cbn [map]; rewrite map_map; [f_equal; [lia|]|]; apply map_ext; intro a; lia.
Qed.

Lemma outages_positions : forall outs (f : step_out -> Q),
  map (fun k => f (nth k outs (mkStep 0 0 0 None 0 0 [] "" None None None None))) (filter (fun k => match nth_error outs k with Some o => Qle_bool (so_usable o) 0 | None => false end) (seq 0 (length outs)))
  = map f (outages outs).
Proof.
  intros outs f. induction outs as [|o outs IH]; [reflexivity|]. cbn [length seq filter nth_error]. rewrite <- seq_shift.
  assert (F : forall l, filter (fun k => match nth_error (o :: outs) k with Some o0 => Qle_bool (so_usable o0) 0 | None => false end) (map S l) =
              map S (filter (fun k => match nth_error outs k with Some o0 => Qle_bool (so_usable o0) 0 | None => false end) l)).
  { induction l as [|a l IHl]; [reflexivity|]. cbn [map filter nth_error].
    destruct (match nth_error outs a with Some o0 => Qle_bool (so_usable o0) 0 | None => false end); cbn [map]; rewrite IHl; reflexivity. }
  rewrite F. unfold outages in *. cbn [filter]. destruct (Qle_bool (so_usable o) 0); cbn [map nth]; rewrite map_map; cbn [nth]; rewrite IH; reflexivity.
Qed.

Lemma filter_seq_first (P : nat -> bool) : forall n a k rest, filter P (seq a n) = k :: rest ->
  (a <= k < a + n)%nat /\ P k = true /\ forall j, (a <= j < k)%nat -> P j = false.
Proof.
  induction n as [|n IH]; intros a k rest H; [discriminate|]. cbn [seq filter] in H. destruct (P a) eqn:E.
  - inversion H; subst. split; [lia|]. split; [exact E|]. intros j Hj. lia.
  - destruct (IH _ _ _ H) as (A & B & C). split; [lia|]. split; [exact B|]. intros j Hj.
    destruct (Nat.eq_dec j a) as [->|N]; [exact E|]. apply C. lia.
Qed.

Lemma last_nth5 (l : list Q) : length l = 6%nat -> last l 0 = nth 5 l 0.
Proof. do 6 (destruct l as [|? l]; [discriminate|]). destruct l; [reflexivity|discriminate]. Qed.

Lemma failure_message_ok outs r : recorded outs r -> sr_show_tm r = false -> (0 < sr_iv r)%Z ->
  (forall o, In o outs -> length (so_temps o) = 6%nat) ->
  (outages outs = [] /\ failure_message r = Ok MsgSucceeded) \/
  exists k avg, first_at (fun o => so_usable o <= 0) outs k /\
    failure_message r = Ok (MsgOutageOn (sr_iv r * Z.of_nat (length (outages outs))) (Z.of_nat k * sr_iv r / 1440 + 1) avg) /\
    avg * qz (Z.of_nat (length (outages outs))) == qsum (map (fun o => last (so_temps o) 0) (outages outs)).
Proof.
  intros R TM Hiv L. unfold failure_message, is_successful. rewrite (rc_outage _ _ R).
  destruct (outages outs) as [|o1 os] eqn:EO.
  { left. split; [reflexivity|]. cbn [length]. change (Z.of_nat 0) with 0%Z. rewrite Z.mul_0_r. reflexivity. }
  right. rewrite <- EO. assert (NZ : (0 < length (outages outs))%nat) by (rewrite EO; cbn; lia).
  replace (sr_iv r * Z.of_nat (length (outages outs)) <=? 0)%Z with false by (symmetry; apply Z.leb_gt; nia).
  rewrite (rc_usable _ _ R), outage_steps_spec.
  set (pos := filter _ (seq 0 (length outs))).
  assert (LP : length pos = length (outages outs)).
  { pose proof (f_equal (@length Q) (outages_positions outs so_demand)) as X. rewrite !map_length in X. exact X. }
  destruct pos as [|k rest] eqn:EP; [cbn in LP; lia|]. cbn [map].
  destruct (filter_seq_first _ _ _ _ _ EP) as (K1 & K2 & K3). rewrite TM.
  change 5%Z with (Z.of_nat 5). rewrite (node_col outs r 5 R L ltac:(lia)). cbn [bind].
  set (dflt := mkStep 0 0 0 None 0 0 [] "" None None None None).
  set (steps := (0 + Z.of_nat k)%Z :: map (fun k0 => (0 + Z.of_nat k0)%Z) rest).
  assert (ST : steps = map (fun k0 => (0 + Z.of_nat k0)%Z) pos) by (rewrite EP; reflexivity).
  assert (MM : mapM (py_nth (map (fun o => nth 5 (so_temps o) 0) outs)) steps = Ok (map (fun o => nth 5 (so_temps o) 0) (outages outs))).
  { rewrite <- (outages_positions outs (fun o => nth 5 (so_temps o) 0)). unfold pos in ST. rewrite ST. clear ST.
    fold pos. rewrite (mapM_ok_map _ (fun z => nth 5 (so_temps (nth (Z.to_nat z) outs dflt)) 0)).
    - rewrite map_map. f_equal. apply map_ext. intro a. replace (Z.to_nat (0 + Z.of_nat a)) with a by lia. reflexivity.
    - intros z Hz. apply in_map_iff in Hz. destruct Hz as (a & <- & Ha). unfold pos in Ha. apply filter_In in Ha. destruct Ha as [Ha _].
      apply in_seq in Ha. replace (0 + Z.of_nat a)%Z with (Z.of_nat a) by lia. rewrite Nat2Z.id.
      apply (py_nth_map (fun o => nth 5 (so_temps o) 0)). apply nth_error_nth'. lia. }
  rewrite MM. cbn [bind].
  assert (LS : length steps = length (outages outs)) by (rewrite ST, map_length, EP; exact LP).
  rewrite LS. unfold qdiv.
  assert (NQ : ~ qz (Z.of_nat (length (outages outs))) == 0).
  { unfold qz. intro X. change 0 with (inject_Z 0) in X. rewrite inject_Z_injective in X. lia. }
  destruct (Qeq_bool (qz (Z.of_nat (length (outages outs)))) 0) eqn:EQ; [apply Qeq_bool_eq in EQ; contradiction|].
  cbn [bind]. eexists. eexists. split; [|split].
  - split.
    + destruct (nth_error outs k) as [o|] eqn:NE; [|discriminate]. exists o. split; [exact NE|]. apply Qle_bool_iff. exact K2.
    + intros j o Hj NE C. specialize (K3 j ltac:(lia)). cbv beta in K3. rewrite NE in K3. apply Qle_bool_iff in C. congruence.
  - rewrite Z.add_0_l. reflexivity.
  - rewrite (map_ext_in (fun o => last (so_temps o) 0) (fun o => nth 5 (so_temps o) 0)).
    + field. exact NQ.
    + intros o Ho. apply last_nth5. apply L. unfold outages in Ho. apply filter_In in Ho. apply Ho.
Qed.
